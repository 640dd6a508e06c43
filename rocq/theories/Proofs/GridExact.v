(** Numbers of axis values in files of FFI 2010, 3010 and 4010 that are read. *)
From Coq Require Import List NArith ZArith Bool Lia.
From Verif Require Import Py.Str Py.Res Py.Num Model.Dict Model.TextParser Model.CommonUtils Model.NARead
  Spec.TextSpec Spec.ReadSpec Proofs.StrLemmas Proofs.TextLemmas Proofs.ReadFrame Proofs.ReadData.
Import ListNotations.

Section GridExact.
Context {num : Type} `{NumOps num}.
Local Notation pyv := (pyv num).

Lemma firstn_all_of {A} (P : A -> Prop) n l : Forall P l -> Forall P (firstn n l).
Proof. rewrite !Forall_forall. intros K x I. apply K. rewrite <- (firstn_skipn n l). apply in_or_app. now left. Qed.
(** At least as many values as wanted. *)
Definition enough (n v : pyv) : Prop := exists k x, n = PInt k /\ v = PList x /\ (k <= Z.of_nat (length x))%Z.
Lemma axes_enough l : Forall (of_type TInt) l -> forall st ls st', read_axes l st = Ok (ls, st') -> r_na st' = r_na st /\ Forall2 enough l ls.
Proof.
  induction 1 as [|n l Hn Hl IH]; cbn [read_axes]; intros st ls st' E.
  - apply retR_inv in E as [-> ->]. auto.
  - apply bindRd_inv in E as (z & s0 & E0 & E). apply liftR_inv in E0 as [E0 ->].
    apply bindRd_inv in E as (x & s1 & E1 & E2). apply bindRd_inv in E2 as (ls' & s2 & E2 & E3).
    destruct (q_items_unknown _ _ _ _ _ E1) as [F1 K1]. destruct (IH _ _ _ E2) as [F2 K2]. apply retR_inv in E3 as [-> ->].
    split; [congruence|]. constructor; [|exact K2]. destruct Hn as [z' ->]. cbn [as_int] in E0. assert (z' = z) as -> by congruence.
    destruct K1 as (T & L & P). exists z, x. auto.
Qed.
Ltac fields := repeat match goal with H : _ /\ _ |- _ => destruct H end.
Ltac nin := apply nin_ok; vm_compute; reflexivity.
Ltac chase := repeat match goal with
  | S : same_except _ _ ?d |- ?d ?k = _ => rewrite (S k) by nin
  | |- upd _ _ _ _ = _ => (rewrite upd_other by discriminate) || rewrite upd_same
  end.
Ltac sections :=
  match goal with E : readCommonHeader _ _ = _ |- _ => apply common_section in E as [(ffi & nlh & K1) S1] end;
  match goal with E : readVariablesHeaderSection _ = _ |- _ => apply vars_section in E as [(nv & vs & vm & vn & K2) S2] end;
  try match goal with E : readAuxVariablesHeaderSection _ = _ |- _ => apply aux_section in E as [(nx & Kx) Sx] end;
  try match goal with E : readCharAuxVariablesHeaderSection _ = _ |- _ => apply caux_section in E as [(nx & nc & Kx) Sx] end;
  match goal with E : readComments _ = _ |- _ => apply comments_section in E as [K3 S3] end;
  cbn [NARead.r_na] in *; fields.
Lemma header_enough ignore ls u (st' : rst num) : readHeader_2010 ignore (mkR ls na_new) = Ok (u, st') ->
  exists niv nxdef ls, r_na st' kNIV = Some (PInt niv) /\ r_na st' kNXDEF = Some (PList nxdef) /\ r_na st' kX = Some (PList (PList [] :: rev ls)) /\
    ((niv - 1)%Z <> 0%Z -> Z.of_nat (length nxdef) = niv - 1)%Z /\ Forall2 enough (firstn (Z.to_nat (niv - 1)) nxdef) ls.
Proof.
  intros E. unfold readHeader_2010 in E.
  assert (RA : forall l (st : rst num) ls st1, read_axes l st = Ok (ls, st1) -> r_na st1 = r_na st /\ (Forall (of_type TInt) l -> Forall2 enough l ls)).
  { intros l st ls0 st1 K. split; [now apply q_read_axes in K as [? _]|]. intros T. now apply (axes_enough l T st ls0 st1). }
  revert E RA. generalize (@read_axes num _). intros ra E RA. run1 E.
  match goal with K : ra _ _ = Ok _ |- _ => apply RA in K as [? K] end. clear RA ra.
  repeat match goal with s : rst _ |- _ => destruct s end; cbn [NARead.r_na NARead.r_lines] in *;
  repeat match goal with E : mkR _ _ = mkR _ _ |- _ => injection E; clear E; intros end; subst.
  sections. attrs.
  match goal with E : attr _ kNIV = PInt ?n, K : common_read _ _ _ ?f _ |- _ =>
      assert (n = Z.quot f 1000) by (unfold attr in E; rewrite (mr_niv _ _ _ _ _ K) in E; congruence); subst n end.
  do 3 eexists.
  split; [chase; match goal with K : common_read _ _ _ _ _ |- _ => exact (mr_niv _ _ _ _ _ K) end|].
  split; [chase; reflexivity|]. split; [chase; reflexivity|]. split; [rewrite rev_length; assumption|].
  match goal with K : Forall _ (firstn _ _) -> Forall2 _ _ _ |- _ => apply K end. apply firstn_all_of. apply Forall_rev. assumption.
Qed.

(** Reading the data leaves the bounded axes alone. *)
Definition grid (c : cls) : Prop := c = C2010 \/ c = C3010 \/ c = C4010.
Lemma modify_tl (l : list pyv) f l' x xs : modify_nth l 0 f = Ok l' -> l = x :: xs -> exists x', l' = x' :: xs.
Proof. intros E ->. cbn in E. inv_bind E. injection E as <-. eauto. Qed.
Lemma loop_axes h c xs : grid c -> forall fuel ls m s s' x, data_loop (num:=num) h c fuel ls m s = Ok s' -> d_X s = x :: xs -> exists x', d_X s' = x' :: xs.
Proof.
  intros Hc.
  assert (R1 : forall ls m s r x, readData1 h c ls m s = Ok r -> d_X s = x :: xs -> exists x', d_X (fst r) = x' :: xs).
  { intros ls m s r x E Ex. assert (E' : readData1_2010 h ls m s = Ok r) by (destruct Hc as [-> | [-> | ->]]; exact E). unfold readData1_2010 in E'.
    inv_bind E'. inv_bind E'. destruct a0 as [xa rest]. inv_bind E'. inv_bind E'. inv_bind E'. injection E' as <-. cbn [fst d_X set_A set_X]. eauto using modify_tl. }
  assert (R2 : forall ls m s r, readData2 h c ls m s = Ok r -> d_X (fst r) = d_X s).
  { intros ls m s r E. assert (E' : readData2_2010 h ls m s = Ok r) by (destruct Hc as [-> | [-> | ->]]; exact E). unfold readData2_2010 in E'.
    inv_bind E'. inv_bind E'. destruct (a <=? 0)%Z; [discriminate E'|]. inv_bind E'. injection E' as <-. reflexivity. }
  induction fuel as [|fuel IH]; intros [|l ls] m s s' x E Ex; cbn [data_loop] in E; try discriminate E; try (injection E as <-; eauto; fail).
  inv_bind E. inv_bind E. destruct (R1 _ _ _ _ _ K Ex) as [x1 E1]. rewrite <- (R2 _ _ _ _ K0) in E1. eapply IH; eauto.
Qed.

(** What is known of every file that is read. *)
Lemma read_enough content ignore c d : grid c -> read_file (num:=num) content ignore = Ok (c, d) ->
  exists niv nxdef x0 ls, d kNIV = Some (PInt niv) /\ d kNXDEF = Some (PList nxdef) /\ d kX = Some (PList (x0 :: rev ls)) /\
    ((niv - 1)%Z <> 0%Z -> Z.of_nat (length nxdef) = niv - 1)%Z /\ Forall2 enough (firstn (Z.to_nat (niv - 1)) nxdef) ls.
Proof.
  intros Hc E. unfold read_file in E. destruct (openNAFile_r content ignore) as [[c' h]|] eqn:Eo; [|discriminate E]. cbn [bindR fst snd] in E.
  destruct (readData h c' content) as [d'|] eqn:Ed; [|discriminate E]. cbn [bindR] in E. assert (c' = c) as -> by congruence. assert (d' = d) as -> by congruence. clear E.
  unfold openNAFile_r in Eo. inv_bind Eo. destruct (getNAFileClass a) as [c'|] eqn:Ec; [|discriminate Eo]. cbn [bindR] in Eo.
  destruct (readHeader c' ignore (mkR (readlines content) na_new)) as [[u st]|] eqn:K3; [|discriminate Eo]. cbn [bindR snd] in Eo.
  assert (c' = c) as -> by congruence. assert (NARead.r_na st = h) as <- by congruence. clear Eo.
  assert (E' : readHeader_2010 ignore (mkR (readlines content) na_new) = Ok (u, st)) by (destruct Hc as [-> | [-> | ->]]; exact K3).
  destruct (header_enough _ _ _ _ E') as (niv & nxdef & ls & H1 & H2 & H3 & H4 & H5).
  unfold readData in Ed. destruct (setupArrays (NARead.r_na st) c) as [d0|] eqn:Es; [|discriminate Ed]. cbn [bindR] in Ed. inv_bind Ed. inv_bind Ed.
  destruct (data_loop (NARead.r_na st) c _ _ 0 d0) as [d1|] eqn:El in Ed; [|discriminate Ed]. cbn [bindR] in Ed. assert (d = store (NARead.r_na st) c d1) as -> by congruence. clear Ed.
  assert (X0 : d_X d0 = PList [] :: rev ls).
  { assert (S : setup_2010 (NARead.r_na st) = Ok d0) by (destruct Hc as [-> | [-> | ->]]; exact Es). unfold setup_2010 in S.
    inv_bind S. inv_bind S. inv_bind S. inv_bind S. inv_bind S. injection S as <-. cbn [d_X].
    match goal with Q : h_mut _ kX = Ok _ |- _ => unfold h_mut, attr in Q; rewrite H3 in Q; congruence end. }
  destruct (loop_axes _ _ _ Hc _ _ _ _ _ _ El X0) as [x' Ex].
  exists niv, nxdef, x', ls.
  assert (St : store (NARead.r_na st) c d1 = upd (upd (upd (NARead.r_na st) kX (PList (d_X d1))) kV (PList (d_V d1))) kA (PList (d_A d1))) by (destruct Hc as [-> | [-> | ->]]; reflexivity).
  rewrite St. split; [repeat rewrite upd_other by discriminate; exact H1|]. split; [repeat rewrite upd_other by discriminate; exact H2|]. split; [|auto].
  rewrite upd_other by discriminate. rewrite upd_other by discriminate. rewrite upd_same, Ex. reflexivity.
Qed.
End GridExact.
