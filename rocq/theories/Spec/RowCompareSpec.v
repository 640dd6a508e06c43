(** Rows that the comparison of files can take apart again (property C68). *)
From Coq Require Import List NArith.
From Verif Require Import Py.Str Py.Num Model.Compare Spec.LetterSpec Spec.Records.
Import ListNotations.

(** [d] stands somewhere in [s]. *)
Definition inside (d s : str) : Prop := exists a b, s = a ++ d ++ b.
(** Not white space, not a comma. *)
Definition ink (c : chr) : Prop := is_space c = false /\ c <> c_comma.
(** An item that starts and ends with ink. *)
Definition inked (s : str) : Prop :=
  (exists c t, s = c :: t /\ ink c) /\ (exists c t, s = t ++ [c] /\ ink c).
Section Cmp.
Context {num : Type} `{NumOps num} `{CmpOps num}.
(** Not the text of a number that differs from itself (nan). *)
Definition same_as_itself (s : str) : Prop := forall x : num, num_parse s = Some x -> num_eqb x x = true.
(** The row is one item with a letter in it, or one item without delimiters in
    it, or several items without delimiters in them. *)
Definition comparable (d1 d2 : str) (row : list str) : Prop :=
  Forall one_line row /\
  match row with
  | [] => same_as_itself []
  | [i] => with_letter i \/ ~ inside d1 (strip i) /\ ~ inside d2 (strip i) /\ same_as_itself (strip i)
  | _ => Forall (fun i => inked i /\ ~ inside d1 i /\ ~ inside d2 i /\ same_as_itself i) row
  end.
End Cmp.
Arguments same_as_itself num {_ _}. Arguments comparable num {_ _}.
