(** Vocabulary for variables of two dimensions that are written on request in
    the formats 2110 and 2310 (properties C108 and C109). *)
From Coq Require Import List NArith ZArith Bool.
From Verif Require Import Py.Str Py.Res Py.Num Py.Arith Model.Dict Model.CommonUtils Spec.Records Model.Xarray Model.Collector Spec.NcRoundTripSpec Spec.GridSpec.
Import ListNotations.

Section Spec.
Context {num : Type} `{NumOps num} `{ArithOps num}.
Local Notation pyv := (pyv num).
Local Notation axis := (Xarray.axis num).

(** A converted dictionary of the format [ffi] with the axes [a] and [b] of numbers
    that can be written: as [grid_table]. *)
Definition profile_table (fill : num) (ffi : Z) (c : collected num) (d : na num) (a b : axis) : Prop :=
  c_na c = Some d /\ d kFFI = Some (PInt ffi) /\
  (exists v rest, c_main c = v :: rest /\ v_axes v = [a; b]) /\ ax_time a = None /\ ax_time b = None /\ writable_header d /\
  Forall (field fill [ax_len a; ax_len b]) (c_main c) /\
  Forall (column fill (ax_len a)) (c_aux c) /\
  (forall x s, In x [a; b] -> getBestName (ax_info x) = Ok s -> name_ok s) /\
  (forall w s, In w (c_main c ++ c_aux c) -> getBestName (v_info w) = Ok s -> name_ok s).
(** The same number as a float. *)
Definition floats (p : pyv) : pyv :=
  match p with
  | PList l => PList (map (fun x => match x with PInt z => PNum (num_of_Z z) | _ => x end) l)
  | _ => p
  end.
(** The missing value of a variable as it is read. *)
Definition miss_read (fill : num) (v : xvar num) : pyv :=
  match miss_num fill v with Some m => PNum m | None => PNone end.
(** [n] values, the first one and a step: each one is the one before plus the
    step. *)
Fixpoint counted (first step : num) (n : nat) : list num :=
  match n with O => [] | S n' => first :: counted (num_plus first step) step n' end.
End Spec.
