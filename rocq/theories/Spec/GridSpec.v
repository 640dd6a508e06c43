(** Vocabulary for variables of two to four dimensions that go through a NASA
    Ames file (property C106). *)
From Coq Require Import List NArith ZArith Bool.
From Verif Require Import Py.Str Py.Res Py.Num Py.Arith Model.Dict Model.CommonUtils Spec.Records Model.Xarray Model.Collector Spec.NcRoundTripSpec.
Import ListNotations.

Section Spec.
Context {num : Type} `{NumOps num} `{ArithOps num}.
Local Notation xvar := (xvar num).
Local Notation pyv := (pyv num).
Local Notation axis := (Xarray.axis num).

(** A rectangular array of numbers with these lengths, the outermost first. *)
Fixpoint num_array (dims : list nat) (p : pyv) : Prop :=
  match dims with
  | [] => exists x, p = PNum x
  | n :: rest => exists l, p = PList l /\ length l = n /\ Forall (num_array rest) l
  end.
(** A variable of numbers, not times, with a number as missing value. *)
Definition field (fill : num) (dims : list nat) (v : xvar) : Prop :=
  v_time v = None /\ miss_num fill v <> None /\ num_array dims (v_data v).

(** The array when it comes back from a file, see [returned]. *)
Fixpoint returned_cells (g : num -> num) (m : num) (p : pyv) : pyv :=
  match p with
  | PNum x => PNum (g (if num_isnan x then m else x))
  | PList l => PList (map (returned_cells g m) l)
  | _ => p
  end.
Definition returned_array (g : num -> num) (fill : num) (v : xvar) : pyv :=
  match miss_num fill v with Some m => returned_cells g m (v_data v) | None => PNone end.

(** A converted dictionary with the unbounded axis [a] and one to three further
    axes of numbers that can be written: the main variables are arrays over the axes, the
    auxiliary variables columns along the first one; names as in [table]. *)
Definition grid_table (fill : num) (c : collected num) (d : na num) (a : axis) (axes : list axis) : Prop :=
  c_na c = Some d /\ (1 <= length axes <= 3)%nat /\ d kFFI = Some (PInt (Z.of_nat (1 + length axes) * 1000 + 10)) /\
  (exists v rest, c_main c = v :: rest /\ v_axes v = a :: axes) /\
  length (ax_nums a) = length (ax_vals a) /\ Forall (fun b => ax_time b = None /\ ax_vals b <> []) axes /\ writable_header d /\
  Forall (field fill (length (ax_nums a) :: map ax_len axes)) (c_main c) /\
  Forall (column fill (length (ax_nums a))) (c_aux c) /\
  (forall b s, In b (a :: axes) -> getBestName (ax_info b) = Ok s -> name_ok s) /\
  (forall w s, In w (c_main c ++ c_aux c) -> getBestName (v_info w) = Ok s -> name_ok s).
Definition grid_class (axes : list axis) : cls :=
  match length axes with 1%nat => C2010 | 2%nat => C3010 | _ => C4010 end.
End Spec.
