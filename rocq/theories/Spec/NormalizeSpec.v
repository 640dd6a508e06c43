(** What an expanded axis looks like. *)
From Coq Require Import List ZArith Bool.
From Verif Require Import Py.Str Py.Res Py.Num Py.Arith Model.Dict.
Import ListNotations.

(** [x'] starts with the first value of [x] and every value is the one before
    plus [dx]. *)
Definition goes_on {num} `{NumOps num} `{ArithOps num} (dx : pyv num) (x x' : list (pyv num)) : Prop :=
  hd_error x' = hd_error x /\
  forall k v, nth_error x' (S k) = Some v -> exists u, nth_error x' k = Some u /\ pv_add u dx = Ok v.
