(** Reading the data section twice. *)
From Coq Require Import List NArith ZArith Bool Lia.
From Verif Require Import Py.Str Py.Res Py.Num Model.Dict Model.TextParser Model.CommonUtils
  Model.NARead Spec.TextSpec Spec.ReadSpec Proofs.StrLemmas Proofs.NumLemmas Proofs.TextLemmas Proofs.ReadData Proofs.WriteSim.
Import ListNotations.

Section Twice.
Context {num : Type} `{NumOps num}.
Local Notation pyv := (pyv num).
Local Notation dst := (dst (num:=num)).

(** The header values that reading the data depends on. *)
Definition same_counts (h h' : na num) : Prop :=
  forall k, In k [kNV; kNAUXV; kNVPM; kNAUXC; kNLHEAD] -> attr h' k = attr h k.

Lemma readData1_counts h h' c ls m s : same_counts h h' -> readData1 h' c ls m s = readData1 h c ls m s.
Proof.
  intros S. assert (Ea : h_int h' kNAUXV = h_int h kNAUXV) by (unfold h_int; rewrite S; [reflexivity|cbn; tauto]).
  assert (Ev : h_int h' kNV = h_int h kNV) by (unfold h_int; rewrite S; [reflexivity|cbn; tauto]).
  assert (Ec : h_int h' kNAUXC = h_int h kNAUXC) by (unfold h_int; rewrite S; [reflexivity|cbn; tauto]).
  destruct c; cbn [readData1];
    unfold readData1_1001, readData1_1010, readData1_2010, readData1_2110, readData1_2160, readData1_2310; now rewrite ?Ea, ?Ev, ?Ec.
Qed.
Lemma readData2_counts h h' c ls m s : same_counts h h' -> readData2 h' c ls m s = readData2 h c ls m s.
Proof.
  intros S. assert (Ev : h_int h' kNV = h_int h kNV) by (unfold h_int; rewrite S; [reflexivity|cbn; tauto]).
  assert (Ep : h_int h' kNVPM = h_int h kNVPM) by (unfold h_int; rewrite S; [reflexivity|cbn; tauto]).
  destruct c; cbn [readData2];
    unfold readData2_1001, readData2_1010, readData2_1020, readData2_2010, readData2_2110, readData2_2310; now rewrite ?Ev, ?Ep.
Qed.
Lemma data_loop_counts h h' c : same_counts h h' -> forall fuel ls m s, data_loop h' c fuel ls m s = data_loop h c fuel ls m s.
Proof.
  intros S. induction fuel as [|fuel IH]; intros [|l ls] m s; cbn [data_loop]; try reflexivity.
  rewrite (readData1_counts h h') by exact S. destruct (readData1 h c (l :: ls) m s) as [[s1 l1]|]; cbn [bindR fst snd]; [|reflexivity].
  rewrite (readData2_counts h h') by exact S. destruct (readData2 h c l1 m s1) as [[s2 l2]|]; cbn [bindR fst snd]; [|reflexivity].
  apply IH.
Qed.
Lemma store_counts h c s : same_counts h (store h c s).
Proof.
  intros k Hk. destruct Hk as [<-|[<-|[<-|[<-|[<-|[]]]]]]; destruct c; reflexivity.
Qed.
Lemma readData_split h c content d : readData h c content = Ok d ->
  exists s0 nlh ls s, setupArrays h c = Ok s0 /\ attr h kNLHEAD = PInt nlh /\
    checkForBlankLines false (slice_from (readlines content) nlh) = Ok ls /\
    data_loop h c (length ls) ls 0 s0 = Ok s /\ d = store h c s.
Proof.
  unfold readData. intros E. inv_bind E. inv_bind E. inv_bind E. inv_bind E. injection E as <-.
  exists a, a0, a1, a2. unfold h_int in K0. destruct (attr h kNLHEAD); try discriminate. cbn in K0. injection K0 as ->. auto.
Qed.
Lemma readData_again h c content s s0 s0' nlh ls s' :
  attr h kNLHEAD = PInt nlh -> checkForBlankLines false (slice_from (readlines content) nlh) = Ok ls ->
  setupArrays (store h c s) c = Ok s0' -> data_loop h c (length ls) ls 0 s0 = Ok s ->
  data_loop h c (length ls) ls 0 s0' = Ok s' ->
  readData (store h c s) c content = Ok (store (store h c s) c s').
Proof.
  intros En Eb Es _ El. unfold readData. rewrite Es. cbn [bindR]. unfold h_int.
  rewrite (store_counts h c s kNLHEAD) by (cbn; tauto). rewrite En. cbn [as_int bindR]. rewrite Eb. cbn [bindR].
  rewrite (data_loop_counts h) by apply store_counts. rewrite El. reflexivity.
Qed.

Definition plain_class (c : cls) : bool :=
  match c with C1001 | C1010 | C1020 | C2110 | C2160 => true | _ => false end.
Lemma readData_twice_plain h c content d : plain_class c = true -> readData h c content = Ok d ->
  exists d', readData d c content = Ok d' /\ forall k, d' k = d k.
Proof.
  intros Hc E. destruct (readData_split _ _ _ _ E) as (s0 & nlh & ls & s & Es & En & Eb & El & ->).
  assert (Es' : setupArrays (store h c s) c = Ok s0).
  { rewrite <- Es. clear -Hc. destruct c; try discriminate Hc; reflexivity. }
  exists (store (store h c s) c s). split; [eapply readData_again; eauto|].
  intros k. clear. destruct c; cbn [store]; unfold upd;
    repeat match goal with |- context [key_beq ?a k] => destruct (key_beq a k) end; reflexivity.
Qed.

(** ** 2010, 3010, 4010: X[0] keeps what it has *)
Definition shiftX (p : list pyv) (s : dst) : dst :=
  set_X s (match d_X s with PList q :: r => PList (p ++ q) :: r | x => x end).
Definition fmap1 {A B C} (f : A -> B) (r : Res (A * C)) : Res (B * C) :=
  match r with Ok (a, c) => Ok (f a, c) | Err e => Err e end.
Lemma readData1_shiftX h p ls m s q r : d_X s = PList q :: r ->
  readData1_2010 h ls m (shiftX p s) = fmap1 (shiftX p) (readData1_2010 h ls m s).
Proof.
  intros Hx. unfold readData1_2010. destruct (h_int h kNAUXV) as [na|]; cbn [bindR]; [|reflexivity].
  destruct (items_from ls (1 + na) TFloat) as [[xa rest]|]; cbn [bindR]; [|reflexivity].
  destruct (nth_res xa 0) as [x|]; cbn [bindR]; [|reflexivity].
  unfold shiftX at 1. rewrite Hx. cbn [d_X d_A set_X modify_nth app_item bindR].
  change (d_A (shiftX p s)) with (d_A s).
  destruct (append_each na (skipn 1 xa) (d_A s)) as [A'|]; cbn [bindR]; [|reflexivity].
  unfold fmap1. do 2 f_equal. unfold shiftX, set_X, set_A. cbn [d_X d_V d_A d_NX d_DX]. now rewrite app_assoc.
Qed.
Lemma readData1_head h ls m s q r s' rest : d_X s = PList q :: r -> readData1_2010 h ls m s = Ok (s', rest) ->
  exists x, d_X s' = PList (q ++ [x]) :: r.
Proof.
  intros Hx E. unfold readData1_2010 in E. inv_bind E. inv_bind E. destruct a0 as [xa rest']. inv_bind E. inv_bind E. inv_bind E. injection E as <- _.
  rewrite Hx in K2. cbn in K2. injection K2 as <-. cbn. eauto.
Qed.
Lemma readData2_shiftX h p ls m s : readData2_2010 h ls m (shiftX p s) = fmap1 (shiftX p) (readData2_2010 h ls m s).
Proof.
  unfold readData2_2010. destruct (h_int h kNV) as [nv|]; cbn [bindR]; [|reflexivity].
  change (d_NX (shiftX p s)) with (d_NX s). destruct (mapR as_int (d_NX s)) as [nx|]; cbn [bindR]; [|reflexivity].
  destruct (nv <=? 0)%Z; [reflexivity|]. change (d_V (shiftX p s)) with (d_V s).
  match goal with |- context [forR ?l ?f ?a] => destruct (forR l f a) end; reflexivity.
Qed.
Lemma readData2_X h ls m s s' rest : readData2_2010 h ls m s = Ok (s', rest) -> d_X s' = d_X s.
Proof.
  unfold readData2_2010. intros E. inv_bind E. inv_bind E. destruct (a <=? 0)%Z; [discriminate|]. inv_bind E. injection E as <- _. reflexivity.
Qed.
Definition fam2010 (c : cls) : bool := match c with C2010 | C3010 | C4010 => true | _ => false end.
Definition rmap {A B} (f : A -> B) (r : Res A) : Res B := match r with Ok a => Ok (f a) | Err e => Err e end.
Lemma data_loop_shiftX h c p : fam2010 c = true -> forall fuel ls m s q r, d_X s = PList q :: r ->
  data_loop h c fuel ls m (shiftX p s) = rmap (shiftX p) (data_loop h c fuel ls m s).
Proof.
  intros Hc.
  assert (C1 : forall ls m s, readData1 h c ls m s = readData1_2010 h ls m s) by (intros; destruct c; try discriminate Hc; reflexivity).
  assert (C2 : forall ls m s, readData2 h c ls m s = readData2_2010 h ls m s) by (intros; destruct c; try discriminate Hc; reflexivity).
  induction fuel as [|fuel IH]; intros [|l ls] m s q r Hx; cbn [data_loop]; try reflexivity.
  rewrite !C1, (readData1_shiftX h p _ _ _ _ _ Hx).
  destruct (readData1_2010 h (l :: ls) m s) as [[s1 l1]|] eqn:E1; cbn [bindR fmap1 fst snd]; [|reflexivity].
  destruct (readData1_head _ _ _ _ _ _ _ _ Hx E1) as [x Hx1].
  rewrite !C2, readData2_shiftX. destruct (readData2_2010 h l1 m s1) as [[s2 l2]|] eqn:E2; cbn [bindR fmap1 fst snd]; [|reflexivity].
  eapply IH. rewrite (readData2_X _ _ _ _ _ _ E2). exact Hx1.
Qed.
Lemma data_loop_head h c : fam2010 c = true -> forall fuel ls m s q r s', d_X s = PList q :: r ->
  data_loop h c fuel ls m s = Ok s' -> exists t, d_X s' = PList (q ++ t) :: r.
Proof.
  intros Hc.
  assert (C1 : forall ls m s, readData1 h c ls m s = readData1_2010 h ls m s) by (intros; destruct c; try discriminate Hc; reflexivity).
  assert (C2 : forall ls m s, readData2 h c ls m s = readData2_2010 h ls m s) by (intros; destruct c; try discriminate Hc; reflexivity).
  induction fuel as [|fuel IH]; intros [|l ls] m s q r s' Hx E; cbn [data_loop] in E; try discriminate.
  1,2: injection E as <-; exists []; now rewrite app_nil_r.
  rewrite C1 in E. inv_bind E. destruct a as [s1 l1]. rewrite C2 in E. inv_bind E. destruct a as [s2 l2]. cbn [fst snd] in *.
  destruct (readData1_head _ _ _ _ _ _ _ _ Hx K) as [x Hx1]. rewrite <- (readData2_X _ _ _ _ _ _ K0) in Hx1.
  destruct (IH _ _ _ _ _ _ Hx1 E) as [t Ht]. exists (x :: t). rewrite Ht, <- app_assoc. reflexivity.
Qed.
Lemma data_loop_head0 h c : fam2010 c = true -> forall fuel ls m s q r s', d_X s' = PList q :: r ->
  data_loop h c fuel ls m s = Ok s' -> exists p r', d_X s = PList p :: r'.
Proof.
  intros Hc [|fuel] [|l ls] m s q r s' Hx E; cbn [data_loop] in E; try discriminate.
  1,2: injection E as <-; eauto.
  assert (C1 : readData1 h c (l :: ls) m s = readData1_2010 h (l :: ls) m s) by (destruct c; try discriminate Hc; reflexivity).
  rewrite C1 in E. inv_bind E. clear E C1 Hx. unfold readData1_2010 in K. inv_bind K. inv_bind K. destruct a1 as [? ?]. inv_bind K. inv_bind K.
  destruct (d_X s) as [|v r']; [discriminate|]. cbn in K3. destruct v; try discriminate. eauto.
Qed.
Lemma setup_again_2010 h c (s s0 : dst) : fam2010 c = true -> setupArrays h c = Ok s0 -> setupArrays (store h c s) c = Ok (set_X s0 (d_X s)).
Proof.
  intros Hc E. assert (Es : setup_2010 h = Ok s0) by (destruct c; try discriminate Hc; exact E).
  assert (G : setup_2010 (store h c s) = Ok (set_X s0 (d_X s))).
  { clear E. unfold setup_2010 in *. 
    assert (K1 : h_list (store h c s) kNX = h_list h kNX) by (destruct c; try discriminate Hc; reflexivity).
    assert (K2 : h_int (store h c s) kNV = h_int h kNV) by (destruct c; try discriminate Hc; reflexivity).
    assert (K3 : h_int (store h c s) kNAUXV = h_int h kNAUXV) by (destruct c; try discriminate Hc; reflexivity).
    assert (K4 : h_mut (store h c s) kX = Ok (d_X s)) by (destruct c; try discriminate Hc; reflexivity).
    rewrite K1, K2, K3, K4. inv_bind Es. inv_bind Es. inv_bind Es. inv_bind Es. inv_bind Es. injection Es as <-. cbn [bindR]. rewrite K0. reflexivity. }
  destruct c; try discriminate Hc; exact G.
Qed.
Lemma readData_twice_2010 h c content d : fam2010 c = true -> readData h c content = Ok d ->
  forall q xr, attr d kX = PList (PList q :: xr) ->
  exists d' p marks, readData d c content = Ok d' /\ q = p ++ marks /\
    attr h kX = PList (PList p :: xr) /\
    attr d' kX = PList (PList (p ++ marks ++ marks) :: xr) /\ forall k, k <> kX -> d' k = d k.
Proof.
  intros Hc E q xr Hq. destruct (readData_split _ _ _ _ E) as (s0 & nlh & ls & s & Es & En & Eb & El & ->).
  assert (Hs : d_X s = PList q :: xr).
  { destruct c; try discriminate Hc; cbn in Hq; congruence. }
  destruct (data_loop_head0 _ _ Hc _ _ _ _ _ _ _ Hs El) as (p & r' & H0).
  pose (s00 := set_X s0 (PList [] :: r')).
  assert (E0 : s0 = shiftX p s00).
  { unfold s00, shiftX, set_X. cbn. rewrite app_nil_r, <- H0. now destruct s0. }
  assert (H00 : d_X s00 = PList [] :: r') by reflexivity.
  rewrite E0, (data_loop_shiftX _ _ p Hc _ _ _ _ _ _ H00) in El.
  destruct (data_loop h c (length ls) ls 0 s00) as [t|] eqn:Et; [|discriminate]. cbn [rmap] in El. injection El as El.
  destruct (data_loop_head _ _ Hc _ _ _ _ _ _ _ H00 Et) as (marks & Ht). cbn [app] in Ht.
  assert (Hq' : q = p ++ marks /\ xr = r').
  { rewrite <- El in Hs. unfold shiftX in Hs. cbn in Hs. rewrite Ht in Hs. injection Hs as -> ->. auto. }
  destruct Hq' as [-> ->].
  assert (E0' : set_X s0 (d_X s) = shiftX (p ++ marks) s00).
  { rewrite Hs. unfold s00, shiftX, set_X. cbn. now rewrite app_nil_r. }
  pose proof (setup_again_2010 h c s s0 Hc Es) as Es'. rewrite E0' in Es'.
  exists (store (store h c s) c (shiftX (p ++ marks) t)), p, marks.
  split.
  - eapply (readData_again h c content s s0); eauto.
    + rewrite E0, (data_loop_shiftX _ _ p Hc _ _ _ _ _ _ H00), Et, <- El. reflexivity.
    + rewrite (data_loop_shiftX _ _ _ Hc _ _ _ _ _ _ H00), Et. reflexivity.
  - split; [reflexivity|]. split; [|split].
    + assert (G : h_mut h kX = Ok (d_X s0)).
      { assert (Es2 : setup_2010 h = Ok s0) by (destruct c; try discriminate Hc; exact Es).
        unfold setup_2010 in Es2. inv_bind Es2. inv_bind Es2. inv_bind Es2. inv_bind Es2. inv_bind Es2. injection Es2 as <-. reflexivity. }
      rewrite H0 in G. unfold h_mut in G. destruct (attr h kX); try discriminate. injection G as ->. reflexivity.
    + assert (G : d_X (shiftX (p ++ marks) t) = PList (p ++ marks ++ marks) :: r').
      { unfold shiftX. cbn. rewrite Ht, app_assoc. reflexivity. }
      rewrite <- G. destruct c; try discriminate Hc; reflexivity.
    + intros k Hk. rewrite <- El. clear -Hk Hc. destruct c; try discriminate Hc; cbn [store]; unfold upd;
      repeat match goal with |- context [key_beq ?a k] => destruct (key_beq a k) eqn:? end; try reflexivity.
      all: exfalso; apply Hk; symmetry; now apply WriteSim.key_beq_true.
Qed.

(** ** 2310: DX grows *)
Definition shiftD (p : list pyv) (s : dst) : dst := set_DX s (p ++ d_DX s).
Lemma readData1_shiftD h p ls m s : readData1_2310 h ls m (shiftD p s) = fmap1 (shiftD p) (readData1_2310 h ls m s).
Proof.
  unfold readData1_2310.
  change (d_A (shiftD p s)) with (d_A s).
  repeat match goal with |- context [bindR ?x _] =>
    lazymatch x with bindR _ _ => fail | _ => destruct x as [?|]; cbn [bindR]; [|reflexivity] end
    | |- context [let (_, _) := ?q in _] => destruct q as [? ?] end.
  unfold fmap1. do 2 f_equal. unfold shiftD, set_X, set_A, set_NX, set_DX. cbn [d_X d_V d_A d_NX d_DX]. now rewrite app_assoc.
Qed.
Lemma readData2_shiftD h p ls m s : readData2_2310 h ls m (shiftD p s) = fmap1 (shiftD p) (readData2_2310 h ls m s).
Proof.
  unfold readData2_2310.
  change (d_NX (shiftD p s)) with (d_NX s). change (d_V (shiftD p s)) with (d_V s).
  repeat match goal with |- context [bindR ?x _] =>
    lazymatch x with bindR _ _ => fail | nth_res (skipn _ _) _ => fail | nth_res _ (_ * _ + _) => fail | modify_nth _ _ _ => fail | _ => destruct x as [?|]; cbn [bindR]; [|reflexivity] end
    | |- context [let (_, _) := ?q in _] => destruct q as [? ?] end.
  reflexivity.
Qed.
Lemma data_loop_shiftD h p : forall fuel ls m s,
  data_loop h C2310 fuel ls m (shiftD p s) = rmap (shiftD p) (data_loop h C2310 fuel ls m s).
Proof.
  induction fuel as [|fuel IH]; intros [|l ls] m s; cbn [data_loop readData1 readData2]; try reflexivity.
  rewrite readData1_shiftD. destruct (readData1_2310 h (l :: ls) m s) as [[s1 l1]|] eqn:E1; cbn [bindR fmap1 fst snd]; [|reflexivity].
  rewrite readData2_shiftD. destruct (readData2_2310 h l1 m s1) as [[s2 l2]|] eqn:E2; cbn [bindR fmap1 fst snd]; [|reflexivity].
  apply IH.
Qed.
Lemma readData_twice_2310 h content d : readData h C2310 content = Ok d ->
  exists d' p dxs, readData d C2310 content = Ok d' /\ as_list (attr h kDX) = Ok p /\
    attr d kDX = PList (p ++ dxs) /\ attr d' kDX = PList (p ++ dxs ++ dxs) /\ forall k, k <> kDX -> d' k = d k.
Proof.
  intros E. destruct (readData_split _ _ _ _ E) as (s0 & nlh & ls & s & Es & En & Eb & El & ->).
  cbn [setupArrays] in Es. pose proof Es as Es1. unfold setup_2110 in Es. inv_bind Es. inv_bind Es. inv_bind Es. injection Es as <-.
  pose (s00 := mkD [] (empties a) (empties a0) [] (@nil pyv)).
  assert (E0 : mkD [] (empties a) (empties a0) [] a1 = shiftD a1 s00) by (unfold shiftD, set_DX, s00; cbn; now rewrite app_nil_r).
  rewrite E0, data_loop_shiftD in El.
  destruct (data_loop h C2310 (length ls) ls 0 s00) as [t|] eqn:Et; [|discriminate]. cbn [rmap] in El. injection El as El.
  assert (Hd : d_DX s = a1 ++ d_DX t) by (now rewrite <- El).
  exists (store (store h C2310 s) C2310 (shiftD (a1 ++ d_DX t) t)), a1, (d_DX t). split.
  - eapply (readData_again h C2310 content s (shiftD a1 s00) (shiftD (a1 ++ d_DX t) s00)); eauto.
    + cbn [setupArrays]. unfold setup_2110.
      change (h_int (store h C2310 s) kNV) with (h_int h kNV). change (h_int (store h C2310 s) kNAUXV) with (h_int h kNAUXV).
      rewrite K, K0. cbn [bindR]. change (h_list (store h C2310 s) kDX) with (Ok (d_DX s)). cbn [bindR]. rewrite Hd.
      unfold shiftD, set_DX, s00. cbn. now rewrite app_nil_r.
    + rewrite data_loop_shiftD, Et, <- El. reflexivity.
    + rewrite data_loop_shiftD, Et. reflexivity.
  - split; [exact K1|]. split; [cbn; now rewrite Hd|]. split.
    + cbn. now rewrite app_assoc.
    + intros k Hk. rewrite <- El. clear -Hk. cbn [store]; unfold upd;
      repeat match goal with |- context [key_beq ?a k] => destruct (key_beq a k) eqn:? end; try reflexivity.
      all: exfalso; apply Hk; symmetry; now apply WriteSim.key_beq_true.
Qed.
End Twice.
