(** The names of the variables in a header. *)
From Coq Require Import List NArith.
From Verif Require Import Py.Str Py.Res Py.Num Model.Dict Model.TextParser.
Import ListNotations.

Definition titles : list key := [kVNAME].
(** The dictionaries differ at most in the names of the variables. *)
Definition same_but_titles {num} (d d' : na num) : Prop := forall k, ~ In k titles -> d k = d' k.
(** The names of these lines: every line without the blanks at its ends and what
    [readItemsFromLines] removes (a part in braces at the end). *)
Definition titles_of {num} `{NumOps num} (d : na num) (ls : list str) : Prop :=
  exists vs, d kVNAME = Some (PList vs) /\ Forall2 (fun v l => readItemFromLine (right_strip_braces (strip l)) TStr = Ok v) vs ls.
