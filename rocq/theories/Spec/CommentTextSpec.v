(** The normal comments of a header. *)
From Coq Require Import List NArith.
From Verif Require Import Py.Str Py.Res Py.Num Model.Dict.
Import ListNotations.

Definition remarks : list key := [kNCOM].
(** The dictionaries differ at most in the normal comments. *)
Definition same_but_remarks {num} (d d' : na num) : Prop := forall k, ~ In k remarks -> d k = d' k.
(** The comments of these lines, without the blanks at their ends. *)
Definition remarks_of {num} (d : na num) (ls : list str) : Prop := d kNCOM = Some (PList (map (fun l => PStr (strip l)) ls)).
