(** Vocabulary for the values in converted dictionaries (properties C75 to C77). *)
From Coq Require Import List NArith ZArith Bool.
From Verif Require Import Py.Str Py.Res Py.Num Py.Arith Model.Dict Model.Xarray Spec.CollectorSpec.
Import ListNotations.

Section Spec.
Context {num : Type} `{NumOps num} `{ArithOps num}.
Local Notation xvar := (xvar num).
Local Notation pyv := (pyv num).

(** The array [w] is the array [v] with [m] in place of the cells that are not a
    number. *)
Inductive marked (m : pyv) : pyv -> pyv -> Prop :=
| marked_missing x : num_isnan x = true -> marked m (PNum x) m
| marked_number x : num_isnan x = false -> marked m (PNum x) (PNum x)
| marked_array l l' : Forall2 (marked m) l l' -> marked m (PList l) (PList l')
| marked_other v : (match v with PNum _ | PList _ => False | _ => True end) -> marked m v v.

(** The missing value of a variable: the one of its encoding, of a list the
    first; otherwise [fill]. *)
Definition missing_of (fill : num) (v : xvar) (m : pyv) : Prop :=
  match v_miss v with
  | None => m = PNum fill
  | Some (PList l) => nth_error l 0 = Some m
  | Some x => m = x
  end.

(** One entry of VNAME, VMISS, VSCAL and V (or of ANAME, AMISS, ASCAL and A). *)
Definition entry_for (fill : num) (v : xvar) (e : pyv * pyv * pyv * pyv) : Prop :=
  match e with
  | (name, miss, scal, values) =>
      (exists n, getBestName (v_info v) = Ok n /\ name = PStr n) /\ missing_of fill v miss /\ scal = PInt 1 /\
      match v_time v with None => marked miss (v_data v) values | Some l => values = l end
  end.
Definition names (l : list (pyv * pyv * pyv * pyv)) : list pyv := map (fun e => fst (fst (fst e))) l.
Definition misses (l : list (pyv * pyv * pyv * pyv)) : list pyv := map (fun e => snd (fst (fst e))) l.
Definition scales (l : list (pyv * pyv * pyv * pyv)) : list pyv := map (fun e => snd (fst e)) l.
Definition arrays (l : list (pyv * pyv * pyv * pyv)) : list pyv := map (fun e => snd e) l.
(** The number of auxiliary variables that describe the second axis in the
    formats 2110 and 2310; these have to be asked for. *)
Definition described (requested : option Z) : nat :=
  match requested with Some 2110%Z => 1 | Some 2310%Z => 3 | _ => 0 end.

(** The element at a position of a nested list. *)
Fixpoint cell (v : pyv) (at_ : list nat) : option pyv :=
  match at_ with
  | [] => Some v
  | i :: p => match v with PList l => match nth_error l i with Some w => cell w p | None => None end | _ => None end
  end.
(** [v] is not the number NaN. *)
Definition not_nan (v : pyv) : Prop := forall x, v = PNum x -> num_isnan x = false.

Local Notation axis := (axis num).
Definition axis_named (a : axis) (n : pyv) : Prop := exists s, getBestName (ax_info a) = Ok s /\ n = PStr s.
(** [dx] is the difference of neighbours if it is the same throughout, otherwise
    (and for one value) 0. *)
Definition step_of (l : list num) (dx : pyv) : Prop :=
  (dx = PInt 0 /\ (length l = 1%nat \/ ~ evenly_spaced l)) \/
  (exists x y, nth_error l 0 = Some x /\ nth_error l 1 = Some y /\ dx = PNum (num_minus y x) /\ evenly_spaced l).
End Spec.
