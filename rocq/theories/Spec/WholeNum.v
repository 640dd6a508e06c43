(** A second concrete number instance: floating point numbers with whole
    values.  As in Python, [str] prints a trailing ".0", which the format
    ["%.10g"] does not. *)
From Coq Require Import List NArith ZArith.
From Verif Require Import Py.Str Py.Res Py.Num Model.Dict Model.CommonUtils.
Import ListNotations.

Inductive whole := Whole (z : Z).
(** Without a trailing ".0". *)
Definition drop_point (s : str) : str :=
  match rev s with
  | a :: b :: t => if str_eqb [b; a] (lit ".0") then rev t else s
  | _ => s
  end.
Global Instance WholeOps : NumOps whole := {|
  num_str := fun x => match x with Whole z => dec_of_Z z ++ lit ".0" end;
  num_parse := fun s => match int_of_str (drop_point s) with Some z => Some (Whole z) | None => None end;
  num_trunc := fun x => match x with Whole z => Some z end;
  num_of_Z := Whole
|}.
Definition whole_g (x : whole) : str := match x with Whole z => dec_of_Z z end.
(** Four spaces, numbers as with ["%g"], no annotation. *)
Definition opts_whole : opts whole := mkOpts (lit "    ") whole_g false (fun _ => None).
