(** Vocabulary for files cut short. *)
From Coq Require Import List NArith ZArith.
From Verif Require Import Py.Str Py.Res Py.Num Model.Dict Model.TextParser Model.CommonUtils.
Import ListNotations.

(** A text made of whole lines: empty, or ending in a newline. *)
Definition whole_lines (a : str) : Prop := a = [] \/ exists b, a = b ++ nl.

Section Cut.
Context {num : Type}.
(** [w] is [v], or a list that starts with all of the list [v]. *)
Definition goes_on (v w : pyv num) : Prop := v = w \/ exists p q, v = PList p /\ w = PList (p ++ q).
(** The same, list by list. *)
Definition all_go_on (v w : pyv num) : Prop := exists p q, v = PList p /\ w = PList q /\ Forall2 goes_on p q.

(** [d] has the first marks of [d']: every variable of [d'] starts with the
    values it has in [d], the axis of the marks starts with the marks of [d],
    and nothing else differs. *)
Definition first_marks (c : cls) (d d' : na num) : Prop :=
  all_go_on (attr d kV) (attr d' kV) /\
  match c with
  | C1001 => goes_on (attr d kX) (attr d' kX) /\ forall k, ~ In k [kX; kV] -> d k = d' k
  | C1010 | C1020 => goes_on (attr d kX) (attr d' kX) /\ all_go_on (attr d kA) (attr d' kA) /\
      forall k, ~ In k [kX; kV; kA] -> d k = d' k
  | C2010 | C3010 | C4010 => all_go_on (attr d kA) (attr d' kA) /\ (forall k, ~ In k [kX; kV; kA] -> d k = d' k) /\
      (attr d kX = attr d' kX \/ exists t t' bounded, attr d kX = PList (t :: bounded) /\ attr d' kX = PList (t' :: bounded) /\ goes_on t t')
  | C2110 | C2160 => goes_on (attr d kX) (attr d' kX) /\ all_go_on (attr d kA) (attr d' kA) /\
      goes_on (attr d kNX) (attr d' kNX) /\ forall k, ~ In k [kX; kV; kA; kNX] -> d k = d' k
  | C2310 => goes_on (attr d kX) (attr d' kX) /\ all_go_on (attr d kA) (attr d' kA) /\
      goes_on (attr d kNX) (attr d' kNX) /\ goes_on (attr d kDX) (attr d' kDX) /\
      forall k, ~ In k [kX; kV; kA; kNX; kDX] -> d k = d' k
  end.
End Cut.
