(** The free texts of a header. *)
From Coq Require Import List NArith.
From Verif Require Import Py.Str Py.Res Py.Num Model.Dict.
Import ListNotations.

(** Lines 2 to 5: author, organisation, source, mission. *)
Definition texts : list key := [kONAME; kORG; kSNAME; kMNAME].
(** The dictionaries differ at most in the free texts. *)
Definition same_but_texts {num} (d d' : na num) : Prop := forall k, ~ In k texts -> d k = d' k.
