(** What questions to a file object should and should not do. *)
From Coq Require Import List NArith ZArith Bool.
From Verif Require Import Py.Str Py.Res Py.Num Model.Dict Model.Lifecycle Model.Inspect.
Import ListNotations.

Section Spec.
Context {num : Type}.

(** The calls without the questions, and the results of the operations alone. *)
Definition operations (l : list (call num)) : list (call num) :=
  filter (fun c => match c with CDo _ => true | CAsk _ => false end) l.
Definition results (l : list (outcome num)) : list (Res unit) :=
  flat_map (fun o => match o with Did r => [r] | Said _ => [] end) l.
(** Two answers tell the same. *)
Definition same_answer (a b : answer num) : Prop :=
  match a, b with ADict d, ADict e => forall k, d k = e k | ADict _, _ | _, ADict _ => False | _, _ => a = b end.
(** Two objects that nobody can tell apart by questions or by the file. *)
Definition alike (x y : obj num) : Prop :=
  ob_mode x = ob_mode y /\ ob_cls x = ob_cls y /\ ob_written x = ob_written y /\ ob_open x = ob_open y /\
  (forall k, ob_attrs x k = ob_attrs y k) /\ ob_file x = ob_file y.
(** Everything that is in [na_dict] is also an attribute. *)
Definition settled (x : obj num) : Prop := forall k v, ob_dict x k = Some v -> ob_attrs x k = Some v.
Definition edits (l : list (call num)) : Prop := exists a d, In (CDo (OEdit a d)) l.
End Spec.
