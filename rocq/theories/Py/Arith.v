(** Arithmetic on numbers, as used by the NetCDF interface.  Abstract, like
    [NumOps]; the laws a theorem needs are premises of that theorem. *)
From Coq Require Import List ZArith Bool.
From Verif Require Import Py.Str Py.Res Py.Num Model.Dict.
Import ListNotations.

Class ArithOps (num : Type) := {
  num_plus  : num -> num -> num;     (* x + y *)
  num_minus : num -> num -> num;     (* x - y *)
  num_times : num -> num -> num;     (* x * y *)
  num_same  : num -> num -> bool;    (* x == y; false for nan *)
  num_isnan : num -> bool            (* numpy.isnan *)
}.

Section Values.
Context {num : Type} `{NumOps num} `{ArithOps num}.
Local Notation pyv := (pyv num).

(** [a + b]. *)
Definition pv_add (a b : pyv) : Res pyv :=
  match a, b with
  | PInt x, PInt y => Ok (PInt (x + y))
  | PInt x, PNum y => Ok (PNum (num_plus (num_of_Z x) y))
  | PNum x, PInt y => Ok (PNum (num_plus x (num_of_Z y)))
  | PNum x, PNum y => Ok (PNum (num_plus x y))
  | PStr x, PStr y => Ok (PStr (x ++ y))
  | PList x, PList y => Ok (PList (x ++ y))
  | _, _ => Err ETypeError
  end.
(** [i * b] for an int [i]. *)
Definition pv_times (i : Z) (b : pyv) : Res pyv :=
  match b with
  | PInt y => Ok (PInt (i * y))
  | PNum y => Ok (PNum (num_times (num_of_Z i) y))
  | PStr y => Ok (PStr (concat (repeat y (Z.to_nat i))))
  | PList y => Ok (PList (concat (repeat y (Z.to_nat i))))
  | PNone => Err ETypeError
  end.
(** [a == b] for the integers of a header.
    Simplification: not modelled for other values. *)
Definition int_eq (a b : pyv) : Res bool :=
  match a, b with PInt x, PInt y => Ok (x =? y)%Z | _, _ => Err EUnmodelled end.
End Values.
