(** More about the data of FFI 2310 and 2160 files. *)
From Coq Require Import List NArith ZArith Bool Lia.
From Verif Require Import Py.Str Py.Res Py.Num Model.Dict Model.TextParser Model.CommonUtils Model.NARead
  Spec.TextSpec Spec.Records Spec.ReadSpec Proofs.StrLemmas Proofs.TextLemmas Proofs.ReadData Proofs.ReadTwice Proofs.ReadRecords Proofs.ReadFrame Proofs.ReadText Proofs.BlankLemmas.
Import ListNotations.

Section ReadMore.
Context {num : Type} `{NumOps num}.
Local Notation pyv := (pyv num).
Variable h : na num.

(** ** 2310: starts and steps of the marks are auxiliary values. *)
Definition inv2310 (nv : Z) (dx0 : list pyv) (s : dst (num:=num)) : Prop :=
  exists a0 a1 a2 ar xs ds zs, d_A s = PList a0 :: PList a1 :: PList a2 :: ar /\ length xs = length a1 /\
    d_X s = map (fun p => PList [fst p; PList [snd p]]) (combine xs a1) /\
    d_DX s = dx0 ++ map PInt ds /\ Forall2 (fun v z => int_of v = Ok z) a2 ds /\
    d_NX s = map PInt zs /\ Forall (fun z => 0 < nv * z)%Z zs.
Lemma combine_snoc {A B} (a : list A) (b : list B) x y : length a = length b -> combine (a ++ [x]) (b ++ [y]) = combine a b ++ [(x, y)].
Proof. revert b. induction a as [|u a IH]; intros [|v b] L; try discriminate; [reflexivity|]. cbn. f_equal. apply IH. now injection L. Qed.
Lemma nth3 (l : list pyv) x y z : nth_error l 0 = Some x -> nth_error l 1 = Some y -> nth_error l 2 = Some z -> exists r, l = x :: y :: z :: r.
Proof. destruct l as [|? [|? [|? r]]]; cbn; intros; try discriminate. exists r. congruence. Qed.
Lemma step_2310 nv na dx0 ls m s s1 l1 s2 l2 : h_int h kNV = Ok nv -> h_int h kNAUXV = Ok na -> (3 <= na)%Z -> length (d_NX s) = m ->
  inv2310 nv dx0 s -> readData1_2310 h ls m s = Ok (s1, l1) -> readData2_2310 h l1 m s1 = Ok (s2, l2) -> inv2310 nv dx0 s2.
Proof.
  intros Hnv Hna L3 Hm (a0 & a1 & a2 & ar & xs & ds & zs & EA & Lx & EX & ED & F & EN & P) E E2.
  unfold readData1_2310 in E. rewrite Hna in E. cbn [bindR] in E.
  inv_bind E. destruct a as [xa rest]. inv_bind E. rename a into x. inv_bind E. rename a into A'. inv_bind E. rename a into b1.
  inv_bind E. rename a into b0. inv_bind E. rename a into z. inv_bind E. rename a into b2. inv_bind E. rename a into dz. injection E as <- _.
  destruct (append_each_nth _ _ _ _ K1) as [G _]. rewrite EA in G.
  destruct (G 0%nat ltac:(lia)) as (l0 & y0 & G1 & G2 & G3). destruct (G 1%nat ltac:(lia)) as (l1' & y1 & G4 & G5 & G6). destruct (G 2%nat ltac:(lia)) as (l2' & y2 & G7 & G8 & G9).
  cbn [nth_error] in G1, G4, G7. injection G1 as <-. injection G4 as <-. injection G7 as <-. destruct (nth3 _ _ _ _ G3 G6 G9) as [ar' EA'].
  unfold nth_res in K2, K5. rewrite G5 in K2. rewrite G8 in K5. injection K2 as <-. injection K5 as <-.
  unfold readData2_2310 in E2. rewrite Hnv in E2. cbn [bindR d_NX set_DX set_NX set_A set_X d_V] in E2.
  inv_bind E2. inv_bind E2. inv_bind E2. destruct a4 as [v rest2]. inv_bind E2. injection E2 as <- _. cbn [d_NX set_DX set_NX] in *.
  assert (a = PInt z). { unfold nth_res in K2. rewrite nth_error_app2, Hm, Nat.sub_diag in K2 by lia. cbn in K2. congruence. }
  subst a. cbn in K5. injection K5 as <-.
  exists (a0 ++ [y0]), (a1 ++ [y1]), (a2 ++ [y2]), ar', (xs ++ [x]), (ds ++ [dz]), (zs ++ [z]).
  cbn [d_A d_X d_DX d_NX set_DX set_NX set_A set_X set_V]. split; [exact EA'|]. rewrite !app_length. split; [cbn; lia|].
  split; [rewrite EX, combine_snoc, map_app by assumption; reflexivity|]. split; [rewrite ED, map_app, app_assoc; reflexivity|].
  split; [apply Forall2_app; [exact F|constructor; auto]|]. split; [rewrite EN, map_app; reflexivity|].
  apply Forall_app. split; [exact P|]. constructor; [|constructor]. destruct (items_ok _ _ _ _ _ K7) as (? & ? & _ & _ & Hlt & _). lia.
Qed.
Lemma read_steps content d na nv dx0 : readData h C2310 content = Ok d -> attr d kNAUXV = PInt na -> (3 <= na)%Z -> attr d kNV = PInt nv -> h kDX = Some (PList dx0) ->
  exists a0 a1 a2 ar xs ds zs, d kA = Some (PList (PList a0 :: PList a1 :: PList a2 :: ar)) /\ length xs = length a1 /\
    d kX = Some (PList (map (fun p => PList [fst p; PList [snd p]]) (combine xs a1))) /\
    d kDX = Some (PList (dx0 ++ map PInt ds)) /\ Forall2 (fun v z => int_of v = Ok z) a2 ds /\
    d kNX = Some (PList (map PInt zs)) /\ Forall (fun z => 0 < nv * z)%Z zs.
Proof.
  intros E Ha L3 Hv Hdx. destruct (readData_split _ _ _ _ E) as (s0 & nlh & ls & s & Es & En & Eb & El & ->).
  cbn [setupArrays] in Es. unfold setup_2110 in Es.
  destruct (h_int h kNV) as [nv'|] eqn:Ev; cbn [bindR] in Es; [|discriminate]. destruct (h_int h kNAUXV) as [na'|] eqn:Ea; cbn [bindR] in Es; [|discriminate].
  destruct (h_list h kDX) as [dx|] eqn:Ed; cbn [bindR] in Es; [|discriminate]. injection Es as <-.
  assert (dx = dx0). { unfold h_list, attr in Ed. rewrite Hdx in Ed. cbn in Ed. congruence. } subst dx.
  change (attr h kNAUXV = PInt na) in Ha. change (attr h kNV = PInt nv) in Hv.
  unfold h_int in Ea, Ev. rewrite Ha in Ea. rewrite Hv in Ev. cbn in Ea, Ev. injection Ea as <-. injection Ev as <-.
  assert (G : exists M, length (d_NX s) = M /\ inv2310 nv dx0 s).
  { apply (loop_inv h C2310 (fun m _ s => length (d_NX s) = m /\ inv2310 nv dx0 s)) with (3 := El).
    - intros ls' m' t t1 l1 t2 l2 [Hm Hi] E1 E2. cbn [readData1 readData2] in E1, E2. split.
      + unfold readData1_2310 in E1. repeat (inv_bind E1; try match goal with p : _ * _ |- _ => destruct p end). injection E1 as <- _.
        unfold readData2_2310 in E2. repeat (inv_bind E2; try match goal with p : _ * _ |- _ => destruct p end). injection E2 as <- _.
        cbn [d_NX set_V set_DX set_NX]. rewrite app_length. cbn. lia.
      + eapply step_2310; eauto; unfold h_int; [rewrite Hv|rewrite Ha]; reflexivity.
    - split; [reflexivity|]. exists [], [], []. unfold empties. destruct (Z.to_nat na) as [|[|[|k]]] eqn:Ek; try lia.
      exists (repeat (PList []) k), [], [], []. cbn. rewrite app_nil_r. repeat split; constructor. }
  destruct G as (_ & _ & a0 & a1 & a2 & ar & xs & ds & zs & EA & Lx & EX & ED & F & EN & P).
  exists a0, a1, a2, ar, xs, ds, zs. unfold store, upd. cbn [key_beq]. rewrite EA, EX, ED, EN. auto 10.
Qed.

(** ** 2160: the texts among the auxiliary values are clean. *)
Definition clean_cols (A : list pyv) : Prop := forall l s, In (PList l) A -> In (PStr s) l -> clean s.
Lemma clean_modify A A' n y : modify_nth A n (app_item y) = Ok A' -> clean1 y -> clean_cols A -> clean_cols A'.
Proof.
  intros E Cy C. destruct (modify_nth_inv _ _ _ _ E) as (a & x & z & b & -> & _ & Ef & ->). intros l s I J.
  apply in_app_or in I as [I | [I | I]].
  - apply (C l s); [apply in_or_app; now left|exact J].
  - subst z. destruct x as [| | | | x]; try discriminate. cbn in Ef. injection Ef as <-. apply in_app_or in J as [J | [J | []]].
    + apply (C x s); [apply in_or_app; right; now left|exact J].
    + subst y. now apply Cy.
  - apply (C l s); [apply in_or_app; right; now right|exact J].
Qed.
Lemma forR_inv {A B} (P : B -> Prop) (f : A -> B -> Res B) l : (forall a b b', P b -> f a b = Ok b' -> P b') ->
  forall b b', P b -> forR l f b = Ok b' -> P b'.
Proof.
  intros S. induction l as [|a l IH]; intros b b' Hb E; cbn [forR] in E; [injection E as <-; exact Hb|].
  destruct (f a b) as [b1|] eqn:E1; cbn [bindR] in E; [|discriminate]. eapply IH; [|exact E]. eapply S; eauto.
Qed.
Lemma items_rest ls n t (vs : list pyv) rest : items_from ls n t = Ok (vs, rest) -> Forall text_line ls -> Forall text_line rest.
Proof. intros E F. destruct (items_ok _ _ _ _ _ E) as (u & l & -> & _). now apply Forall_app in F. Qed.
Lemma lines_clean ls (vs : list pyv) : readItemsFromLines ls = Ok vs -> Forall text_line ls -> Forall clean1 vs.
Proof.
  unfold readItemsFromLines. revert vs. induction ls as [|l ls IH]; intros vs E F; cbn [mapR] in E; [injection E as <-; constructor|].
  inversion F as [|? ? F1 F2]; subst. unfold readItemFromLine at 1 in E. cbn [conv bindR] in E.
  destruct (mapR _ ls) as [r|] eqn:Er; cbn [bindR] in E; [|discriminate]. injection E as <-. constructor; [|now apply IH].
  apply clean1_str, quotes_clean, strip_line, braces_line, braces_line, F1.
Qed.
Lemma slice_from_lines (P : str -> Prop) ls n : Forall P ls -> Forall P (slice_from ls n).
Proof. intros F. unfold slice_from. rewrite Forall_forall in F |- *. intros l I. apply F. match type of I with In _ (skipn ?k ?x) => rewrite <- (firstn_skipn k x); apply in_or_app; now right end. Qed.
Lemma slice_to_lines (P : str -> Prop) ls n : Forall P ls -> Forall P (slice_to ls n).
Proof. intros F. unfold slice_to. rewrite Forall_forall in F |- *. intros l I. apply F. match type of I with In _ (firstn ?k ?x) => rewrite <- (firstn_skipn k x); apply in_or_app; now left end. Qed.
Lemma num_clean (v : pyv) : is_num v -> clean1 v.
Proof. intros [x ->] s E. discriminate. Qed.
Lemma clean_2160 ls m s s1 l1 s2 l2 : Forall text_line ls -> clean_cols (d_A s) ->
  readData1_2160 h ls m s = Ok (s1, l1) -> readData2_2110 h l1 m s1 = Ok (s2, l2) -> Forall text_line l2 /\ clean_cols (d_A s2).
Proof.
  intros T C E E2. unfold readData1_2160 in E. inv_bind E. inv_bind E.
  inv_bind E. destruct a1 as [x1 ls1]. inv_bind E. inv_bind E. destruct a2 as [aux ls2]. inv_bind E. inv_bind E. inv_bind E. inv_bind E. inv_bind E. injection E as <- <-.
  pose proof (items_rest _ _ _ _ _ K1 T) as T1. pose proof (items_rest _ _ _ _ _ K3 T1) as T2. pose proof (items_nums _ _ _ _ K3) as Hn.
  pose proof (lines_clean _ _ K7 (slice_to_lines _ _ _ T2)) as Hc.
  assert (C1 : clean_cols a4).
  { unfold append_each in K6. revert K6. apply forR_inv; [|exact C]. intros i L L' CL EL. inv_bind EL. eapply clean_modify; [exact EL| |exact CL].
    apply nth_res_in in K6. rewrite Forall_forall in Hn. now apply num_clean, Hn. }
  assert (C2 : clean_cols a6).
  { revert K8. apply forR_inv; [|exact C1]. intros i L L' CL EL. inv_bind EL. destruct (_ <? 0)%Z; [discriminate|]. eapply clean_modify; [exact EL| |exact CL].
    apply nth_res_in in K8. rewrite Forall_forall in Hc. now apply Hc. }
  unfold readData2_2110 in E2. inv_bind E2. inv_bind E2. inv_bind E2. inv_bind E2. inv_bind E2. destruct a11 as [[X V] rest]. injection E2 as <- <-.
  split; [|exact C2]. cbn [set_NX set_A set_X d_X] in K13.
  refine (forR_inv (fun acc : list pyv * list pyv * list str => Forall text_line (snd acc)) _ _ _ _ _ _ K13); [|exact (slice_from_lines _ _ _ T2)].
  intros i [[X0 V0] l0] b' F E. inv_bind E. destruct a11 as [xv r]. inv_bind E. inv_bind E. inv_bind E. injection E as <-. cbn [snd] in *.
  eapply items_rest; eauto.
Qed.
Lemma read_chars content d : readData h C2160 content = Ok d -> exists A, d kA = Some (PList A) /\ clean_cols A.
Proof.
  intros E. destruct (readData_split _ _ _ _ E) as (s0 & nlh & ls & s & Es & En & Eb & El & ->).
  cbn [setupArrays] in Es. unfold setup_2110 in Es. inv_bind Es. inv_bind Es. inv_bind Es. injection Es as <-.
  apply check_ok in Eb as (b & Eb & _).
  assert (T : Forall text_line ls).
  { pose proof (slice_from_lines text_line _ nlh (readlines_text content)) as T. rewrite Eb in T. now apply Forall_app in T. }
  assert (G : exists M : nat, Forall text_line [] /\ clean_cols (d_A s)).
  { apply (loop_inv h C2160 (fun m ls s => Forall text_line ls /\ clean_cols (d_A s))) with (3 := El).
    - intros ls' m' t t1 l1 t2 l2 [T' C'] E1 E2. cbn [readData1 readData2] in E1, E2. eapply clean_2160; eauto.
    - split; [exact T|]. cbn [d_A]. unfold empties. intros l x I J. apply repeat_spec in I. injection I as ->. destruct J. }
  destruct G as (_ & _ & G). exists (d_A s). split; [reflexivity|exact G].
Qed.
End ReadMore.
