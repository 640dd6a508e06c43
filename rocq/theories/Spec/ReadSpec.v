(** Vocabulary for statements about data that was read. *)
From Coq Require Import List NArith ZArith.
From Verif Require Import Py.Str Py.Res Py.Num Model.Dict Model.CommonUtils Spec.TextSpec.
Import ListNotations.

Section Shape.
Context {num : Type}.
(** A number; a list of [len] numbers; [n] lists of [len] numbers. *)
Definition is_num (v : pyv num) : Prop := exists x, v = PNum x.
Definition column (len : nat) (v : pyv num) : Prop := exists l, v = PList l /\ length l = len /\ Forall is_num l.
Definition columns (n : Z) (len : nat) (v : pyv num) : Prop :=
  exists l, v = PList l /\ length l = Z.to_nat n /\ Forall (column len) l.
(** A rectangular block of numbers with the given sizes, outermost first. *)
Fixpoint shaped (dims : list nat) (v : pyv num) : Prop :=
  match dims with
  | [] => is_num v
  | d :: rest => exists l, v = PList l /\ length l = d /\ Forall (shaped rest) l
  end.
(** [m] blocks, each satisfying [B]. *)
Definition blocks (B : pyv num -> Prop) (m : nat) (v : pyv num) : Prop := exists l, v = PList l /\ length l = m /\ Forall B l.
(** Number of values per mark: NVPM for FFI 1020, otherwise 1. *)
Definition per_mark (c : cls) (h : na num) : nat :=
  match c with
  | C1020 => match attr h kNVPM with PInt z => Z.to_nat z | _ => 0%nat end
  | _ => 1%nat
  end.
(** One list of numbers per mark, of the sizes [ks]. *)
Definition ragged (ks : list nat) (v : pyv num) : Prop := exists l, v = PList l /\ Forall2 column ks l.
(** A mark [[x, points]] with [k] points, the mark satisfying [P]. *)
Definition mark_with_points (P : pyv num -> Prop) (k : nat) (v : pyv num) : Prop :=
  exists x pts, v = PList [x; PList pts] /\ P x /\ column k (PList pts).
(** FFI 2310: marks [[x, [first point]]]. *)
Definition mark_with_start (v : pyv num) : Prop := exists x a, v = PList [x; PList [a]] /\ is_num x /\ is_num a.
Definition is_str (v : pyv num) : Prop := exists t, v = PStr t.
Definition is_word (v : pyv num) : Prop := exists t, v = PStr t /\ word t.
Definition str_column (len : nat) (v : pyv num) : Prop := exists l, v = PList l /\ length l = len /\ Forall is_str l.
(** The cell (column [j], row [i]) of the values [V]. *)
Definition cell (V : list (pyv num)) (j i : nat) : option (pyv num) :=
  match nth_error V j with Some (PList l) => nth_error l i | _ => None end.
End Shape.
(** The words of some lines, annotations removed. *)
Definition words (ls : list str) (ws : list str) : Prop :=
  exists ps gs, Forall2 payload ls ps /\ Forall2 fields ps gs /\ ws = concat gs.
(** No white space except at the ends. *)
Definition no_inner_space (l : str) : Prop :=
  exists a w b, l = a ++ w ++ b /\ blank a /\ blank b /\ Forall (fun c => is_space c = false) w.
