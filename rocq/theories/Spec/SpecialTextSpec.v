(** The special comments of a header. *)
From Coq Require Import List NArith.
From Verif Require Import Py.Str Py.Res Py.Num Model.Dict.
Import ListNotations.

Definition specials : list key := [kSCOM].
(** The dictionaries differ at most in the special comments. *)
Definition same_but_specials {num} (d d' : na num) : Prop := forall k, ~ In k specials -> d k = d' k.
(** The special comments of these lines, without the blanks at their ends. *)
Definition specials_of {num} (d : na num) (ls : list str) : Prop := d kSCOM = Some (PList (map (fun l => PStr (strip l)) ls)).
