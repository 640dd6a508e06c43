(** Nested lists addressed by index (property C48). *)
From Coq Require Import List NArith ZArith Bool.
From Verif Require Import Py.Str Py.Res Py.Num Model.Dict.
Import ListNotations.

(** Number of elements of a block with the given sizes. *)
Definition size (ds : list nat) : nat := fold_right Nat.mul 1%nat ds.

(** [v[i1][i2]...[ik]]. *)
Fixpoint element {num} (v : pyv num) (idx : list nat) : option (pyv num) :=
  match idx with
  | [] => Some v
  | i :: rest => match v with
                 | PList l => match nth_error l i with Some w => element w rest | None => None end
                 | _ => None
                 end
  end.

(** The position of the element with these indices when a block with sizes
    [ds] is laid out with the last index running fastest. *)
Fixpoint row_major (ds idx : list nat) : nat :=
  match ds, idx with
  | _ :: ds', i :: idx' => (i * size ds' + row_major ds' idx')%nat
  | _, _ => 0%nat
  end.

(** [v] is a nested list with exactly these sizes. *)
Fixpoint has_sizes {num} (ds : list nat) (v : pyv num) : Prop :=
  match ds with
  | [] => True
  | d :: rest => exists l, v = PList l /\ length l = d /\ Forall (has_sizes rest) l
  end.

(** The [r]-th group of [n] items. *)
Definition group {A} (n : nat) (l : list A) (r : nat) : list A := firstn n (skipn (r * n) l).

(** A line of cells: trailing blanks and commas removed, then a newline. *)
Definition row_line (cells : list str) : str :=
  rstrip_by (fun c => (c =? c_sp) || (c =? c_comma))%N (concat cells) ++ nl.
