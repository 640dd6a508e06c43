(** A first concrete instance of the number interface: integers, printed and
    read in decimal notation.  Used to show that the premises of the theorems
    can be met, and in the concrete cases. *)
From Coq Require Import List NArith ZArith.
From Verif Require Import Py.Str Py.Res Py.Num.

Global Instance ZOps : NumOps Z := {|
  num_str := dec_of_Z;
  num_parse := int_of_str;
  num_trunc := @Some Z;
  num_of_Z := fun z => z
|}.
