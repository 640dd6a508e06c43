(** Which characters occur in a dictionary and in the writing options. *)
From Coq Require Import List NArith ZArith Bool.
From Verif Require Import Py.Str Py.Res Py.Num Model.Dict Model.CommonUtils.
Import ListNotations.

(** The character [c] occurs in no string of the value. *)
Inductive absent {num} (c : chr) : pyv num -> Prop :=
| ab_none : absent c PNone
| ab_int z : absent c (PInt z)
| ab_num x : absent c (PNum x)
| ab_str s : ~ In c s -> absent c (PStr s)
| ab_list l : Forall (absent c) l -> absent c (PList l).

Definition absent_dict {num} (c : chr) (d : na num) : Prop :=
  forall k v, d k = Some v -> absent c v.

(** Neither the options nor the printed numbers contain it. *)
Definition absent_opts {num} `{NumOps num} (c : chr) (o : opts num) : Prop :=
  ~ In c (o_delim o) /\ (forall x, ~ In c (o_fmt o x)) /\
  (forall i a, o_ann o i = Some a -> ~ In c a) /\ (forall x : num, ~ In c (num_str x)).

(** Carriage returns that are not followed by a line feed. *)
Fixpoint lone_cr (s : str) : nat :=
  match s with
  | [] => O
  | c :: t => (if (c =? c_cr)%N then if starts_nl t then 0 else 1 else 0) + lone_cr t
  end.
