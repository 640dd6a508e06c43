(** Vocabulary for the line of column headers (property C147). *)
From Coq Require Import List NArith ZArith.
From Verif Require Import Py.Str Py.Res Py.Num Model.Dict Model.CommonUtils Spec.RowSpec.
Import ListNotations.

Section Spec.
Context {num : Type} `{NumOps num}.
Local Notation pyv := (pyv num).
Local Notation na := (na num).

(** A dictionary with the columns [cs], each a name with its values, all of the
    same length: the independent variable first. *)
Record table := mkTable { tb_name : str; tb_values : list pyv; tb_rest : list (str * list pyv) }.
Definition names (t : table) : list str := tb_name t :: map fst (tb_rest t).
Definition columns (t : table) : list (list pyv) := tb_values t :: map snd (tb_rest t).
Definition is_table (d : na) (t : table) : Prop :=
  d kFFI = Some (PInt 1001) /\ (exists more, attr d kXNAME = PList (PStr (tb_name t) :: more)) /\
  attr d kX = PList (tb_values t) /\ attr d kNV = PInt (Z.of_nat (length (tb_rest t))) /\
  attr d kVNAME = PList (map (fun c => PStr (fst c)) (tb_rest t)) /\ attr d kV = PList (map (fun c => PList (snd c)) (tb_rest t)) /\
  Forall (fun c => length (snd c) = length (tb_values t)) (tb_rest t).

(** The printed values of row [m]: one of each column, in order. *)
Definition row_of (fmt : num -> str) (t : table) (m : nat) (row : list str) : Prop :=
  Forall2 (fun column text => exists v, nth_error column m = Some v /\ fmt_f fmt v = Ok text) (columns t) row.
Definition rows_of (fmt : num -> str) (t : table) (rows : list (list str)) : Prop :=
  length rows = length (tb_values t) /\ forall m row, nth_error rows m = Some row -> row_of fmt t m row.

(** The text [s] is made of complete lines. *)
Definition whole_lines (s : str) : Prop := exists t, s = t ++ [c_nl].
(** [header] is made of complete lines, and [last] is its last line. *)
Definition header_ends (header last : str) : Prop :=
  exists before, header = before ++ last ++ [c_nl] /\ whole_lines before.
End Spec.
Arguments table : clear implicits.
