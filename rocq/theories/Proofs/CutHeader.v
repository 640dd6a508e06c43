(** Lines behind those that the header reader has seen do not change what it
    returns. *)
From Coq Require Import List NArith ZArith Bool Lia.
From Verif Require Import Py.Str Py.Res Py.Num Model.Dict Model.TextParser Model.CommonUtils
  Model.NARead Spec.TextSpec Spec.CutSpec Proofs.ReadData Proofs.CutData.
Import ListNotations.

Section Header.
Context {num : Type} `{NumOps num}.

Definition steady {A} (m : R num A) : Prop := forall ls d a st', m (mkR ls d) = Ok (a, st') ->
  (ls = [] -> r_lines st' = []) /\
  (r_lines st' <> [] -> forall more, m (mkR (ls ++ more) d) = Ok (a, mkR (r_lines st' ++ more) (r_na st'))).

Lemma st_ret {A} (a : A) : steady (retR a).
Proof. intros ls d x st' [= <- <-]. split; auto. Qed.
Lemma st_lift {A} (r : Res A) : steady (liftR r).
Proof. intros ls d x st' E. unfold liftR in *. destruct r; [|discriminate]. injection E as <- <-. split; auto. Qed.
Lemma st_bind {A B} (m : R num A) (f : A -> R num B) : steady m -> (forall a, steady (f a)) -> steady (bindRd m f).
Proof.
  intros Hm Hf ls d b st' E. unfold bindRd in *. destruct (m (mkR ls d)) as [[a [l1 d1]]|] eqn:E1; [|discriminate].
  destruct (Hm _ _ _ _ E1) as [M1 M2]. destruct (Hf a _ _ _ _ E) as [F1 F2]. cbn [r_lines r_na] in *. split; [auto|].
  intros Hne more. rewrite M2; [|intros E0; apply Hne; auto]. apply F2. exact Hne.
Qed.
Lemma st_readline : steady readline.
Proof.
  intros [|l ls] d a st' E; cbn in E; injection E as <- <-; split; auto; cbn; congruence.
Qed.
Lemma st_set k v : steady (set (num:=num) k v).
Proof. intros ls d a st' [= <- <-]. split; auto. Qed.
Lemma st_get k : steady (get (num:=num) k).
Proof. intros ls d a st' [= <- <-]. split; auto. Qed.
Lemma st_unknown n t : steady (items_unknown (num:=num) n t).
Proof.
  intros ls d a st' E. unfold items_unknown in *. cbn [r_lines r_na] in *. unfold readItemsFromUnknownLines in *.
  destruct (unknown_loop EHang n [] None ls) as [[[r e] rest]|] eqn:El; cbn [bindR] in E; [|discriminate].
  destruct e as [[|x e]|]; try discriminate. destruct (mapR (conv t) r) as [vs|] eqn:Ev; [|discriminate]. cbn [bindR] in E. injection E as <- <-. cbn [r_lines r_na].
  split.
  - intros ->. cbn in El. destruct (0 <? n)%Z; [discriminate|]. now injection El as _ _ <-.
  - intros _ more. rewrite (unknown_app _ _ _ _ _ more _ _ _ El). cbn [bindR]. rewrite Ev. reflexivity.
Qed.
Lemma st_int k : steady (get_int (num:=num) k).
Proof. apply st_bind; [apply st_get|]. intros. apply st_lift. Qed.
Lemma st_list k : steady (get_list (num:=num) k).
Proof. apply st_bind; [apply st_get|]. intros. apply st_lift. Qed.
Lemma st_lines n : steady (readLines n).
Proof.
  unfold readLines. induction (Z.to_nat n) as [|k IH]; cbn [read_n_lines]; [apply st_ret|].
  apply st_bind; [apply st_readline|]. intros. apply st_bind; [exact IH|]. intros. apply st_ret.
Qed.
Lemma st_item t : steady (item_line (num:=num) t).
Proof. apply st_bind; [apply st_readline|]. intros. apply st_lift. Qed.
Lemma st_items n t : steady (items_line (num:=num) n t).
Proof. apply st_bind; [apply st_readline|]. intros. apply st_lift. Qed.
Lemma st_names n : steady (names (num:=num) n).
Proof. apply st_bind; [apply st_lines|]. intros. apply st_lift. Qed.
Lemma st_ignored n : steady (read_ignored (num:=num) n).
Proof.
  induction n as [|k IH]; cbn [read_ignored]; [apply st_ret|]. apply st_bind; [apply st_item|]. intros. apply st_bind; [exact IH|]. intros. apply st_ret.
Qed.
Lemma st_axes l : steady (read_axes (num:=num) l).
Proof.
  induction l as [|v l IH]; cbn [read_axes]; [apply st_ret|]. apply st_bind; [apply st_lift|]. intros. apply st_bind; [apply st_unknown|]. intros.
  apply st_bind; [exact IH|]. intros. apply st_ret.
Qed.
Ltac st := repeat match goal with
  | |- steady (bindRd _ _) => apply st_bind; [|intros ?]
  | |- steady (retR _) => apply st_ret
  | |- steady (liftR _) => apply st_lift
  | |- steady (set _ _) => apply st_set
  | |- steady (get_int _) => apply st_int
  | |- steady (get_list _) => apply st_list
  | |- steady (item_line _) => apply st_item
  | |- steady (items_line _ _) => apply st_items
  | |- steady (items_unknown _ _) => apply st_unknown
  | |- steady (names _) => apply st_names
  | |- steady (readLines _) => apply st_lines
  | |- steady (read_axes _) => apply st_axes
  | |- steady (read_ignored _) => apply st_ignored
  | |- steady (if ?b then _ else _) => destruct b
  end.
Lemma st_header c ignore : steady (readHeader (num:=num) c ignore).
Proof.
  destruct c; cbn [readHeader]; unfold readHeader_1001, readHeader_1010, readHeader_1020, readHeader_2010, readHeader_2110, readHeader_2160, readHeader_2310,
    readCommonHeader, readTopLine, readVariablesHeaderSection, readAuxVariablesHeaderSection, readCharAuxVariablesHeaderSection, readComments; st.
Qed.

(** The header of a text that goes on behind it. *)
Lemma opened_longer a b ignore c u st : whole_lines a ->
  openNAFile_r (num:=num) a ignore = Ok (c, r_na st) -> readHeader c ignore (mkR (readlines a) na_new) = Ok (u, st) -> r_lines st <> [] ->
  openNAFile_r (a ++ b) ignore = Ok (c, r_na st).
Proof.
  intros Hw E Er Hne. unfold openNAFile_r in *. inv_bind E. destruct (getNAFileClass a0) as [c'|] eqn:Ec; cbn [bindR] in E; [|discriminate].
  inv_bind E. assert (c' = c) as -> by (injection E as -> _; reflexivity).
  assert (F : readFFI (num:=num) (a ++ b) ignore = Ok a0).
  { unfold readFFI in *. rewrite (readlines_cut _ _ Hw).
    destruct (Nat.lt_ge_cases (Z.to_nat ignore) (length (readlines a))) as [Hl|Hl].
    - rewrite app_nth1 by exact Hl. exact K.
    - rewrite nth_overflow in K by exact Hl. cbn in K. discriminate. }
  rewrite F. cbn [bindR]. rewrite Ec. cbn [bindR]. rewrite (readlines_cut _ _ Hw).
  rewrite (proj2 (st_header c ignore _ _ _ _ Er) Hne). reflexivity.
Qed.
End Header.
