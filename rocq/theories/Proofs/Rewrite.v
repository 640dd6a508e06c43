(** A dictionary that was read is the dictionary of a record. *)
From Coq Require Import List NArith ZArith Bool Lia.
From Verif Require Import Py.Str Py.Res Py.Num Model.Dict Model.TextParser Model.CommonUtils Model.NAWrite Model.NARead
  Spec.TextSpec Spec.Records Spec.RoundTripSpec Spec.ReadSpec Spec.RewriteSpec
  Proofs.StrLemmas Proofs.NumLemmas Proofs.TextLemmas Proofs.RTText Proofs.RTHead Proofs.RT1 Proofs.RT2 Proofs.RT3 Proofs.RT4 Proofs.RT5
  Proofs.RT6 Proofs.ReadData Proofs.ReadTwice Proofs.ReadFrame Proofs.ReadFile Proofs.ReadText Proofs.ReadMore Props.ReadProps.
Import ListNotations.

Section Rewrite.
Context {num : Type} `{NumOps num}.
Local Notation pyv := (pyv num).
Local Notation number := (number num).
Local Notation var := (var num).

(** ** What a header sets *)
Ltac fields := repeat match goal with H : _ /\ _ |- _ => destruct H end.
Lemma aux_more st u st' : readAuxVariablesHeaderSection (num:=num) st = Ok (u, st') ->
  exists n, r_na st' kNAUXV = Some (PInt n) /\ ((n <= 0)%Z -> same_except [kNAUXV] (r_na st) (r_na st')).
Proof.
  intros E. unfold readAuxVariablesHeaderSection in E. run E. attrs. subst. exists a1.
  destruct (Z.ltb_spec 0 a1) as [Hp|Hp].
  - run E. split; [reflexivity|]. intros; lia.
  - run E. split; [reflexivity|]. intros _. apply same_upd; [apply same_refl|cbn; tauto].
Qed.
Lemma caux_more st u st' : readCharAuxVariablesHeaderSection (num:=num) st = Ok (u, st') ->
  exists n nc, r_na st' kNAUXV = Some (PInt n) /\ r_na st' kNAUXC = Some (PInt nc) /\
    ((n <= 0)%Z -> same_except [kNAUXV; kNAUXC] (r_na st) (r_na st')) /\
    ((0 < n)%Z -> exists l, r_na st' kLENA = Some (PList (repeat PNone (Z.to_nat (n - nc)) ++ l)) /\ Forall (of_type TInt) l /\ (nc <= Z.of_nat (length l))%Z).
Proof.
  intros E. unfold readCharAuxVariablesHeaderSection in E. run E. attrs. subst.
  match type of E with context [(0 <? ?n)%Z] => destruct (Z.ltb_spec 0 n) as [Hp|Hp] end.
  - run E. attrs. fields. do 2 eexists. split; [reflexivity|]. split; [reflexivity|]. split; [intros; lia|]. intros _. eexists. split; [reflexivity|]. auto.
  - run E. do 2 eexists. split; [reflexivity|]. split; [reflexivity|]. split; [|intros; lia]. intros _. apply same_upd; [apply same_upd; [apply same_refl|]|]; cbn; tauto.
Qed.
Definition coms_keys : list key := [kNSCOML; kSCOM; kNNCOML; kNCOM].
Definition vars_keys : list key := [kNV; kVSCAL; kVMISS; kVNAME].
Definition aux_keys : list key := [kNAUXV; kASCAL; kAMISS; kANAME].
Definition header_keys (c : cls) : list key :=
  common_keys ++ [kDX; kXNAME] ++ vars_keys ++ coms_keys ++
  match c with
  | C1001 => []
  | C1020 => kNVPM :: aux_keys
  | C2010 | C3010 | C4010 => kNX :: kNXDEF :: kX :: aux_keys
  | C2160 => kLENX :: kNAUXC :: kLENA :: aux_keys
  | _ => aux_keys
  end.
Ltac nin := apply nin_ok; vm_compute; reflexivity.
Ltac chase := repeat match goal with
  | S : same_except _ _ ?d |- ?d ?k = _ => rewrite (S k) by nin
  | |- upd _ _ _ _ = _ => (rewrite upd_other by discriminate) || rewrite upd_same
  end.
Ltac incl_keys := apply incl_ok; vm_compute; reflexivity.
Ltac outer ks d0 d :=
  match d with
  | _ => constr_eq d d0; apply same_refl
  | _ => match goal with S : same_except _ ?e d |- _ =>
      eapply same_trans; [|eapply same_mono; [|exact S]; incl_keys]; outer ks d0 e end
  | upd ?e _ _ => apply same_upd; [outer ks d0 e|apply key_in_true; vm_compute; reflexivity]
  end.
Ltac sections' :=
  match goal with E : readCommonHeader _ _ = _ |- _ => apply common_section in E as [(ffi & nlh & K1) S1] end;
  match goal with E : readVariablesHeaderSection _ = _ |- _ => apply vars_section in E as [_ S2] end;
  try match goal with E : readAuxVariablesHeaderSection _ = _ |- _ =>
    pose proof (aux_more _ _ _ E) as (nx & Kx & Sn); apply aux_section in E as [_ Sx] end;
  try match goal with E : readCharAuxVariablesHeaderSection _ = _ |- _ =>
    pose proof (caux_more _ _ _ E) as (nx & nc & Kx & Kc & Sn & Kl); apply caux_section in E as [_ Sx] end;
  match goal with E : readComments _ = _ |- _ => apply comments_section in E as [_ S3] end;
  cbn [NARead.r_na] in *.
Lemma header_sets c ignore ls u st' : readHeader (num:=num) c ignore (mkR ls na_new) = Ok (u, st') ->
  same_except (header_keys c) na_new (r_na st') /\
  (c <> C1001 -> exists n, r_na st' kNAUXV = Some (PInt n) /\
    ((n <= 0)%Z -> r_na st' kASCAL = None /\ r_na st' kAMISS = None /\ r_na st' kANAME = None)) /\
  (exists niv dx, r_na st' kNIV = Some (PInt niv) /\ r_na st' kDX = Some (PList dx) /\ Forall (of_type TFloat) dx /\
     (niv <> 0%Z -> Z.of_nat (length dx) = match c with C2160 | C2310 => 1 | _ => niv end)%Z) /\
  (c = C1020 -> exists n, r_na st' kNVPM = Some (PInt n)) /\
  (c = C2160 -> (exists x, r_na st' kLENX = Some (PNum x)) /\ exists n nc, r_na st' kNAUXV = Some (PInt n) /\ r_na st' kNAUXC = Some (PInt nc) /\
    ((0 < n)%Z -> exists l, r_na st' kLENA = Some (PList (repeat PNone (Z.to_nat (n - nc)) ++ l)) /\ Forall (of_type TInt) l /\ (nc <= Z.of_nat (length l))%Z)).
Proof.
  intros E.
  destruct c; cbn [readHeader] in E;
    unfold readHeader_1001, readHeader_1010, readHeader_1020, readHeader_2010, readHeader_2110, readHeader_2160, readHeader_2310 in E; run E; sections';
    (match goal with E : attr _ kNIV = PInt ?n, K : common_read _ _ _ ?f _ |- _ =>
      assert (n = Z.quot f 1000) by (unfold attr in E; rewrite (mr_niv _ _ _ _ _ K) in E; congruence); subst n end);
    (split; [match goal with |- same_except ?ks ?d0 ?d => outer ks d0 d end|]);
    (split; [intros Hc; first [congruence|
      exists nx; split; [chase; assumption|]; intros Hn; specialize (Sn Hn);
      clear Sx; repeat split; chase; reflexivity]|]);
    (split; [do 2 eexists; split; [chase; match goal with K : common_read _ _ _ _ _ |- _ => exact (mr_niv _ _ _ _ _ K) end|];
      split; [chase; reflexivity|]; fields; rewrite ?rev_length; split; [try apply Forall_rev; assumption|first [assumption|intros _; match goal with K : 1%Z <> 0%Z -> _ |- _ => apply K; discriminate end]]|]);
    (split; [intros Hc; first [discriminate|
      repeat match goal with T : of_type TInt _ |- _ => destruct T as [? ->] end; eexists; chase; reflexivity]|]);
    intros Hc; first [discriminate|
      split; [repeat match goal with T : of_type TFloat _ |- _ => destruct T as [? ->] end; eexists; chase; reflexivity|];
      exists nx, nc; split; [chase; assumption|]; split; [chase; assumption|];
      intros Hp; destruct (Kl Hp) as (l & Kl1 & Kl2); exists l; split; [chase; exact Kl1|exact Kl2]].
Qed.

(** ** Lists of numbers *)
Definition floats (l : list number) : Prop := Forall (fun n => exists x, n = NF x) l.
Lemma float_list (l : list pyv) : Forall is_num l -> exists ns, l = map pv ns /\ floats ns.
Proof.
  induction 1 as [|v l [x ->] _ (ns & -> & F)]; [exists []; split; [reflexivity|constructor]|].
  exists (NF x :: ns). split; [reflexivity|]. constructor; [eauto|exact F].
Qed.
Lemma column_list len (v : pyv) : column len v -> exists ns, v = nums_pv ns /\ floats ns /\ length ns = len.
Proof.
  intros (l & -> & L & F). destruct (float_list l F) as (ns & -> & K). exists ns. rewrite map_length in L. auto.
Qed.
Lemma column_lists len (l : list pyv) : Forall (column len) l ->
  exists nss, l = map nums_pv nss /\ Forall floats nss /\ Forall (fun ns => length ns = len) nss.
Proof.
  induction 1 as [|v l K _ (nss & -> & F & L)]; [exists []; repeat constructor|].
  apply column_list in K as (ns & -> & F1 & L1). exists (ns :: nss). repeat split; constructor; auto.
Qed.
Variable g : num -> num.
Lemma nums_g ns : floats ns -> nums_pv (map (data_num g) ns) = map_nums g (nums_pv ns).
Proof.
  intros F. unfold nums_pv. cbn [map_nums]. f_equal. induction F as [|n ns [x ->] _ IH]; [reflexivity|]. cbn [map]. now rewrite IH.
Qed.
Lemma numss_g nss : Forall floats nss -> PList (map nums_pv (map (map (data_num g)) nss)) = map_nums g (PList (map nums_pv nss)).
Proof.
  intros F. cbn [map_nums]. f_equal. induction F as [|ns nss K _ IH]; [reflexivity|]. cbn [map]. now rewrite IH, nums_g.
Qed.
Lemma head_float n : (exists x, n = NF x) -> head_num (num:=num) n = n.
Proof. intros [x ->]. reflexivity. Qed.

(** ** The records of the header sections *)
Lemma strs_list l : Forall (of_type (num:=num) TStr) l -> exists ss, l = map PStr ss.
Proof. induction 1 as [|v l [s ->] _ [ss ->]]; [now exists []|]. now exists (s :: ss). Qed.
Lemma names_ok ss : Forall clean1 (map (PStr (num:=num)) ss) -> (forall s, In (PStr s) (map (PStr (num:=num)) ss) -> plain_text s) -> Forall name_ok ss.
Proof.
  intros C P. apply Forall_forall. intros s I. rewrite Forall_forall in C.
  pose proof (in_map (PStr (num:=num)) _ _ I) as J. split; [exact (C _ J s eq_refl)|exact (P _ J)].
Qed.
Lemma vars_of (vs vm : list pyv) : forall ss, Forall (of_type TFloat) vs -> Forall (of_type TFloat) vm -> length vs = length ss -> length vm = length ss ->
  exists l : list var, vs = map pv (map v_scal l) /\ vm = map pv (map v_miss l) /\ ss = map v_name l /\ float_vars l.
Proof.
  revert vm. induction vs as [|v vs IH]; intros vm ss Fs Fm Ls Lm; destruct ss as [|s ss]; try discriminate; destruct vm as [|w vm]; try discriminate.
  - exists []. repeat split; constructor.
  - inversion Fs as [|? ? [x ->] Fs']; inversion Fm as [|? ? [y ->] Fm']; subst. injection Ls as Ls. injection Lm as Lm.
    destruct (IH vm ss Fs' Fm' Ls Lm) as (l & -> & -> & -> & F). exists (mkVar (NF x) (NF y) s :: l). repeat split; auto.
    constructor; [split; eexists; reflexivity|exact F].
Qed.
Lemma norm_vars_read (l : list var) : float_vars l -> map norm_var l = l.
Proof.
  induction 1 as [|v l [[x Ex] [y Ey]] _ IH]; [reflexivity|]. cbn [map]. rewrite IH. f_equal. destruct v as [a b s].
  cbn in Ex, Ey. subst. reflexivity.
Qed.

Definition stored (c : cls) : list key :=
  match c with
  | C1001 => [kX; kV]
  | C2110 | C2160 => [kX; kV; kA; kNX]
  | C2310 => [kX; kV; kA; kNX; kDX]
  | _ => [kX; kV; kA]
  end.
Lemma of_store c content (d h : na num) k : readData h c content = Ok d -> ReadFrame.key_in k (stored c) = false -> d k = h k.
Proof.
  intros Ed N. apply nin_ok in N. destruct (readData_split _ _ _ _ Ed) as (s0 & nlh & ls & s & _ & _ & _ & _ & ->).
  assert (U : forall e k' v, In k' (stored c) -> e k = h k -> upd e k' v k = (h k : option pyv)).
  { intros e k' v I Z. rewrite upd_other; [exact Z|]. intros ->. contradiction. }
  destruct c; unfold store; repeat (apply U; [cbn; tauto|]); reflexivity.
Qed.

(** The dictionary [d] was read: the header [h] and what was added. *)
Section Read.
Variables (c : cls) (content : str) (ignore : Z) (d : na num).
Hypothesis Hread : read_file content ignore = Ok (c, d).
Hypothesis Htidy : tidy g c d.

Lemma frame_keys : exists h, openNAFile_r content ignore = Ok (c, h) /\ readData h c content = Ok d /\ (forall k, ~ In k data_keys -> d k = h k) /\ clean_na h.
Proof.
  unfold read_file in Hread. destruct (openNAFile_r content ignore) as [[c0 h]|] eqn:Eo; cbn [bindR fst snd] in Hread; [|discriminate].
  destruct (readData h c0 content) as [d0|] eqn:Ed; cbn [bindR] in Hread; [|discriminate].
  assert (c0 = c) by congruence. assert (d0 = d) by congruence. subst. exists h. split; [reflexivity|]. split; [exact Ed|].
  split; [exact (readData_frame _ _ _ _ Ed)|eapply header_clean; eauto].
Qed.
Definition same_head (h : na num) : Prop := forall k, ~ In k data_keys -> d k = h k.

Lemma has_forall items : Forall (fun p => d (fst p) = Some (snd p)) items -> has d items.
Proof. intros F k v I. rewrite Forall_forall in F. exact (F _ I). Qed.
Ltac hs := apply has_forall; repeat (constructor; [cbn [fst snd]; first [assumption|symmetry; assumption]|]); constructor.
Ltac key := apply nin_ok; vm_compute; reflexivity.
Lemma of_head h k : same_head h -> ReadFrame.key_in k data_keys = false -> d k = h k.
Proof. intros S N. apply S, nin_ok, N. Qed.

Lemma title_of h k s : clean_na h -> h k = Some (PStr s) -> same_head h -> In k [kONAME; kORG; kSNAME; kMNAME] -> d k = Some (PStr s) /\ title_ok s.
Proof.
  intros C E S I. assert (Ed : d k = Some (PStr s)).
  { rewrite S; [exact E|]. cbn in I. destruct I as [<- | [<- | [<- | [<- | []]]]]; key. }
  split; [exact Ed|]. destruct (ti_titles g c d Htidy k s I Ed) as (P & N & Q). split; [|auto]. split; [|exact P].
  exact (proj1 (C _ _ E) s eq_refl).
Qed.
Lemma comments_of (h : na num) k l : clean_na h -> h k = Some (PList (map PStr l)) -> Forall clean l.
Proof.
  intros C E. destruct (C _ _ E) as [_ F]. specialize (F _ eq_refl). rewrite Forall_map in F. eapply Forall_impl; [|exact F].
  intros s K. exact (K s eq_refl).
Qed.
Lemma common_record h line : header_read c h line ignore -> same_head h -> clean_na h ->
  d kFFI = Some (PInt (cls_ffi c)) -> d kNIV = Some (PInt (cls_ffi c / 1000)) -> exists r,
  common_ok r /\ read_comments r /\ has d (common_items (cls_ffi c) (cls_ffi c / 1000) r).
Proof.
  intros Hh S C Hf Hn. destruct (hr_common _ _ _ _ Hh) as (ffi & nlh & M).
  destruct (mr_strs _ _ _ _ _ M kONAME) as [s1 E1]; [cbn; tauto|]. destruct (mr_strs _ _ _ _ _ M kORG) as [s2 E2]; [cbn; tauto|].
  destruct (mr_strs _ _ _ _ _ M kSNAME) as [s3 E3]; [cbn; tauto|]. destruct (mr_strs _ _ _ _ _ M kMNAME) as [s4 E4]; [cbn; tauto|].
  destruct (mr_ivol _ _ _ _ _ M) as (iv & nv & Ei & Ev).
  destruct (mr_date _ _ _ _ _ M) as (a & b & e & Ed). destruct (mr_rdate _ _ _ _ _ M) as (a' & b' & e' & Er).
  destruct (hr_com _ _ _ _ Hh) as (n & m & sc & nc & Hn1 & Hs & Ls & Hm1 & Hc & Lc).
  destruct (title_of h kONAME s1) as [D1 T1]; auto; [cbn; tauto|]. destruct (title_of h kORG s2) as [D2 T2]; auto; [cbn; tauto|].
  destruct (title_of h kSNAME s3) as [D3 T3]; auto; [cbn; tauto|]. destruct (title_of h kMNAME s4) as [D4 T4]; auto; [cbn; tauto|].
  pose proof (comments_of _ _ _ C Hs) as Fs. pose proof (comments_of _ _ _ C Hc) as Fc.
  rewrite <- (of_head h) in Ei, Ev, Ed, Er, Hn1, Hs, Hm1, Hc by (reflexivity || assumption).
  pose proof (ti_counts g c d Htidy kNSCOML kSCOM _ _ ltac:(cbn; tauto) Hn1 Hs) as Q1. rewrite map_length in Q1.
  pose proof (ti_counts g c d Htidy kNNCOML kNCOM _ _ ltac:(cbn; tauto) Hm1 Hc) as Q2. rewrite map_length in Q2. subst n m.
  exists (mkCommon s1 s2 s3 s4 iv nv (a, b, e) (a', b', e') sc nc). split; [|split].
  - unfold common_ok. cbn. repeat (split; [assumption|]). split; (eapply Forall_impl; [|eassumption]); intros s K; apply K.
  - split; cbn; (eapply Forall_impl; [|eassumption]); intros s K; apply K.
  - unfold common_items. cbn [c_oname c_org c_sname c_mname c_ivol c_nvol c_date c_rdate c_scom c_ncom date_pv len_pv strs_pv]. hs.
Qed.
Lemma names_of (h : na num) k l : clean_na h -> h k = Some (PList l) -> same_head h -> In k [kXNAME; kVNAME; kANAME] -> Forall (of_type TStr) l ->
  exists ss, l = map PStr ss /\ d k = Some (strs_pv ss) /\ Forall name_ok ss.
Proof.
  intros C E S I T. destruct (strs_list l T) as [ss ->]. assert (Ed : d k = Some (strs_pv ss)).
  { rewrite S; [exact E|]. cbn in I. destruct I as [<- | [<- | [<- | []]]]; key. }
  exists ss. split; [reflexivity|]. split; [exact Ed|]. apply names_ok; [exact (proj2 (C _ _ E) _ eq_refl)|].
  intros s J. exact (ti_names g c d Htidy k _ s I Ed J).
Qed.
Lemma vars_record h line : header_read c h line ignore -> same_head h -> clean_na h -> exists l : list var,
  vars_ok l /\ float_vars l /\ has d (var_items l).
Proof.
  intros Hh S C. destruct (hr_vars _ _ _ _ Hh) as (nv & vs & vm & vn & V). destruct V as [V1 V2 V3 V4 Vp Vls Vlm Vln Vts Vtm Vtn].
  destruct (names_of h kVNAME vn) as (ss & -> & D4 & N); auto; [cbn; tauto|].
  rewrite <- (of_head h) in V1, V2, V3 by (reflexivity || assumption).
  pose proof (ti_counts g c d Htidy kNV kVSCAL _ _ ltac:(cbn; tauto) V1 V2) as Q1.
  pose proof (ti_counts g c d Htidy kNV kVMISS _ _ ltac:(cbn; tauto) V1 V3) as Q2. rewrite map_length in Vln.
  destruct (vars_of vs vm ss) as (l & -> & -> & -> & F); auto; try lia.
  rewrite !map_length in Q1. exists l. split; [|split; [exact F|]].
  - split; [intros ->; cbn in Q1; lia|]. now rewrite Forall_map in N.
  - unfold var_items, len_pv, nums_pv. rewrite Q1. hs.
Qed.
(** *** Items that are absent *)
Lemma opened h : openNAFile_r content ignore = Ok (c, h) -> exists u st, readHeader c ignore (mkR (readlines content) na_new) = Ok (u, st) /\ h = r_na st.
Proof.
  unfold openNAFile_r. intros E. destruct (readFFI content ignore) as [f|]; cbn [bindR] in E; [|discriminate].
  destruct (getNAFileClass f) as [c'|]; cbn [bindR] in E; [|discriminate].
  destruct (readHeader c' ignore (mkR (readlines content) na_new)) as [[u st]|] eqn:Er; cbn [bindR snd] in E; [|discriminate].
  assert (c' = c) by congruence. assert (r_na st = h) by congruence. subst. eauto.
Qed.
Lemma absent h k : openNAFile_r content ignore = Ok (c, h) -> readData h c content = Ok d ->
  ReadFrame.key_in k (header_keys c ++ stored c) = false -> d k = None.
Proof.
  intros E Ed N. apply nin_ok in N. destruct (readData_split _ _ _ _ Ed) as (s0 & nlh & ls & s & _ & _ & _ & _ & ->).
  apply opened in E as (u & st & E & ->). destruct (header_sets _ _ _ _ _ E) as [S _].
  assert (Hk : r_na st k = None).
  { rewrite (S k); [|intros I; apply N, in_or_app; auto]. unfold na_new. rewrite upd_other; [reflexivity|]. intros <-. apply N. now left. }
  assert (N2 : ~ In k (stored c)) by (intros I; apply N, in_or_app; auto). clear N.
  assert (U : forall e k' v, In k' (stored c) -> e k = None -> upd e k' v k = (None : option pyv)).
  { intros e k' v I Z. rewrite upd_other; [exact Z|]. intros ->. contradiction. }
  destruct c; unfold store; repeat (apply U; [cbn; tauto|]); exact Hk.
Qed.
Lemma absent_aux h : openNAFile_r content ignore = Ok (c, h) -> c <> C1001 -> d kNAUXV = Some (PInt 0) -> same_head h ->
  d kASCAL = None /\ d kAMISS = None /\ d kANAME = None.
Proof.
  intros E N D S. apply opened in E as (u & st & E & ->). destruct (header_sets _ _ _ _ _ E) as (_ & A & _).
  destruct (A N) as (n & En & K). rewrite (of_head (r_na st)) in D by (reflexivity || assumption). rewrite D in En. injection En as <-.
  destruct K as (K1 & K2 & K3); [lia|]. rewrite !(of_head (r_na st)) by (reflexivity || assumption). auto.
Qed.
Lemma no_nauxc : c <> C2160 -> d kNAUXC = None.
Proof. intros N. destruct frame_keys as (h & E & Ed & _). eapply absent; eauto. clear -N. destruct c; congruence || reflexivity. Qed.
Lemma aux_record h line n : header_read c h line ignore -> same_head h -> clean_na h -> aux_read h n -> (0 <= n)%Z -> c <> C2160 -> exists l : list var,
  auxs_ok l /\ float_vars l /\ has d (aux_items l) /\ n = Z.of_nat (length l).
Proof.
  intros Hh S C [A1 A2] Hp Nc. rewrite <- (of_head h) in A1 by (reflexivity || assumption).
  destruct (Z.eq_dec n 0) as [-> | Hn].
  { exists []. split; [constructor|]. split; [constructor|]. split; [|reflexivity]. cbn [aux_items]. hs. }
  destruct A2 as (vs & vm & vn & V2 & V3 & V4 & Vls & Vlm & Vln & Vts & Vtm & Vtn); [lia|].
  destruct (names_of h kANAME vn) as (ss & -> & D4 & N); auto; [cbn; tauto|].
  rewrite <- (of_head h) in V2, V3 by (reflexivity || assumption).
  pose proof (ti_scal g c d Htidy _ _ A1 V2) as Q1. rewrite (no_nauxc Nc), Z.sub_0_r in Q1.
  pose proof (ti_counts g c d Htidy kNAUXV kAMISS _ _ ltac:(cbn; tauto) A1 V3) as Q2. rewrite map_length in Vln.
  destruct (vars_of vs vm ss) as (l & -> & -> & -> & F); auto; try lia.
  rewrite !map_length in Q1. exists l. split; [now rewrite Forall_map in N|]. split; [exact F|]. split; [|symmetry; exact Q1].
  destruct l as [|v l]; [cbn in Q1; lia|]. unfold aux_items, len_pv, nums_pv. rewrite Q1. hs.
Qed.
Lemma dx_record h : openNAFile_r content ignore = Ok (c, h) -> h kNIV = Some (PInt (cls_ffi c / 1000)) ->
  exists dx, h kDX = Some (nums_pv dx) /\ floats dx /\ (Z.of_nat (length dx) = match c with C2160 | C2310 => 1 | _ => cls_ffi c / 1000 end)%Z.
Proof.
  intros E Hn. apply opened in E as (u & st & E & ->). destruct (header_sets _ _ _ _ _ E) as (_ & _ & (niv & l & K1 & K2 & F & L) & _).
  rewrite Hn in K1. injection K1 as <-. destruct (float_list l F) as (ns & -> & Fn). rewrite map_length in L. exists ns. split; [exact K2|].
  split; [exact Fn|]. apply L. destruct c; discriminate.
Qed.
Lemma xname_record h line : header_read c h line ignore -> same_head h -> clean_na h -> h kNIV = Some (PInt (cls_ffi c / 1000)) ->
  exists ss, d kXNAME = Some (strs_pv ss) /\ Forall name_ok ss /\ Z.of_nat (length ss) = (cls_ffi c / 1000)%Z.
Proof.
  intros Hh S C Hn. destruct (hr_xname _ _ _ _ Hh) as (niv & xn & K1 & K2 & L & T). rewrite Hn in K1. injection K1 as <-.
  destruct (names_of h kXNAME xn) as (ss & -> & D & N); auto; [cbn; tauto|]. exists ss. split; [exact D|]. split; [exact N|].
  rewrite map_length in L. rewrite L. apply Z2Nat.id. destruct c; vm_compute; discriminate.
Qed.
Definition exactly (items : list (key * pyv)) : Prop := forall k, k <> kNLHEAD -> k <> kIGN -> ~ In k (map fst items) -> d k = None.
Definition rw (p : key * pyv) : key * pyv := (fst p, rewritten g (fst p) (snd p)).
(** All that is known of a file, before its records are put together. *)
Lemma file_parts : exists h line, openNAFile_r content ignore = Ok (c, h) /\ readData h c content = Ok d /\
  same_head h /\ clean_na h /\ header_read c h line ignore /\
  d kFFI = Some (PInt (cls_ffi c)) /\ d kNIV = Some (PInt (cls_ffi c / 1000)) /\ h kNIV = Some (PInt (cls_ffi c / 1000)).
Proof.
  destruct frame_keys as (h & E & Ed & S & C). exists h, (nth (Z.to_nat ignore) (readlines content) []).
  destruct (top_line_read _ _ _ _ E) as (nlh & ffi & _ & Hh & Ef & Ec). repeat (split; [assumption|]).
  assert (ffi = cls_ffi c) as ->.
  { unfold getNAFileClass in Ec. destruct (find _ all_cls) as [c1|] eqn:F; [|discriminate].
    injection Ec as ->. apply find_some in F as [_ F]. apply Z.eqb_eq in F. congruence. }
  destruct (hr_common _ _ _ _ Hh) as (ffi' & nlh' & M). pose proof (mr_ffi _ _ _ _ _ M) as Hf. rewrite Ef in Hf. injection Hf as <-.
  pose proof (mr_niv _ _ _ _ _ M) as Hn. replace (Z.quot (cls_ffi c) 1000) with (cls_ffi c / 1000)%Z in Hn by (destruct c; reflexivity).
  rewrite !(of_head h) by (reflexivity || assumption). auto.
Qed.
Lemma attr_some (e : na num) k l : default_attr (num:=num) k = PNone -> attr e k = PList l -> e k = Some (PList l).
Proof. unfold attr. destruct (e k); intros Z E; [congruence|rewrite Z in E; discriminate]. Qed.
Lemma attr_some_int (e : na num) k z : default_attr (num:=num) k = PNone -> attr e k = PInt z -> e k = Some (PInt z).
Proof. unfold attr. destruct (e k); intros Z E; [congruence|rewrite Z in E; discriminate]. Qed.
End Read.

Lemma has_count d (vs : list var) nv : has d (var_items vs) -> d kNV = Some (PInt nv) -> Z.to_nat nv = length vs.
Proof. intros Hh E. specialize (Hh kNV (len_pv vs) (or_introl eq_refl)). rewrite E in Hh. injection Hh as ->. apply Nat2Z.id. Qed.
Lemma has_list d items : Forall (fun p => d (fst p) = Some (snd p)) items -> has (num:=num) d items.
Proof. intros F k v I. rewrite Forall_forall in F. exact (F _ I). Qed.
Ltac hs := apply has_list; repeat (constructor; [cbn [fst snd]; first [assumption|symmetry; assumption]|]); constructor.
Ltac has_all := repeat (apply has_app; split; [assumption|]); hs.
Ltac in_keys K1 K2 K3 := solve [ exfalso; apply K3, key_in_true; reflexivity | now elim K1 | now elim K2 | assumption ].
Ltac all_keys := intros k K1 K2 K3; destruct k; try in_keys K1 K2 K3;
  (eapply absent; [..|eassumption|eassumption|reflexivity]; (eassumption || discriminate)).

(** ** 1001 *)
Lemma record1001 content ignore d : read_file content ignore = Ok (C1001, d) -> tidy g C1001 d -> exists r,
  ok1001 r /\ floats1001 r /\ has d (items1001 r) /\ exactly d (items1001 r) /\ items1001 (norm1001 g r) = map rw (items1001 r).
Proof.
  intros Hr Ht. assert (N1 : C1001 <> C2160) by discriminate. assert (N2 : C1001 <> C2310) by discriminate.
  destruct (file_parts C1001 content ignore d Hr Ht) as (h & line & Eo & Ed & S & C & Hh & Df & Dn & Hn).
  destruct (common_record C1001 ignore d Ht h line Hh S C Df Dn) as (rc & O1 & F1 & H1).
  destruct (vars_record C1001 ignore d Ht h line Hh S C) as (vs & O2 & F2 & H2).
  destruct (dx_record C1001 content ignore d Hr Ht h Eo Hn) as (dx & D3 & F3 & L3).
  destruct (xname_record C1001 content ignore d Hr Ht h line Hh S C Hn) as (xn & D4 & N4 & L4).
  destruct (C24_rectangular h C1001 content d ltac:(cbn; tauto) Ed) as (nv & xs & Ev & Ex & Fx & (V & EV & LV & FV) & _).
  change (Z.of_nat (length dx) = Z.of_nat 1) in L3. apply Nat2Z.inj in L3. change (Z.of_nat (length xn) = Z.of_nat 1) in L4. apply Nat2Z.inj in L4.
  destruct dx as [|dx [|]]; try discriminate L3. destruct xn as [|xn [|]]; try discriminate L4.
  destruct (float_list xs Fx) as (x & -> & Fx'). destruct (column_lists _ V FV) as (v & -> & Fv & Lv).
  apply attr_some in Ex, EV; try reflexivity. apply attr_some_int in Ev; [|reflexivity]. inversion N4; subst. inversion F3 as [|? ? Fdx _]; subst.
  rewrite <- (of_store C1001 content d h kDX Ed eq_refl) in D3.
  exists (mk1001 rc vs dx xn x v). split; [|split; [|split; [|split]]].
  - unfold ok1001. cbn [r1_common r1_vars r1_xname r1_v r1_x]. repeat (split; [assumption|]).
    rewrite map_length in LV. rewrite LV, (has_count d vs nv H2 Ev). split; [reflexivity|].
    cbn [per_mark] in Lv. rewrite map_length, Nat.mul_1_r in Lv. exact Lv.
  - unfold floats1001. auto.
  - unfold items1001. cbn [r1_common r1_vars r1_dx r1_xname r1_v r1_x]. has_all.
  - all_keys.
  - unfold items1001, norm1001. cbn [r1_common r1_vars r1_dx r1_xname r1_v r1_x].
    rewrite norm_common_read, norm_vars_read, head_float, nums_g, numss_g by assumption. rewrite !map_app. reflexivity.
Qed.

(** ** 1010 and 1020 *)
Lemma rw_aux (l : list var) : map rw (aux_items l) = aux_items l.
Proof. destruct l; reflexivity. Qed.
Lemma has_aux_count d (vs : list var) na : has d (aux_items vs) -> d kNAUXV = Some (PInt na) -> Z.to_nat na = length vs.
Proof. intros Hh E. specialize (Hh kNAUXV (len_pv vs)). rewrite E in Hh. specialize (Hh (or_introl eq_refl)). injection Hh as ->. apply Nat2Z.id. Qed.
Lemma aux_of c content ignore d h line na m : read_file content ignore = Ok (c, d) -> tidy g c d -> c <> C1001 -> c <> C2160 ->
  openNAFile_r content ignore = Ok (c, h) -> header_read c h line ignore -> same_head d h -> clean_na h ->
  d kNAUXV = Some (PInt na) -> columns na m (attr d kA) -> exists (l : list var) nss,
    auxs_ok l /\ float_vars l /\ has d (aux_items l) /\ d kA = Some (PList (map nums_pv nss)) /\ Forall floats nss /\
    Forall (fun ns => length ns = m) nss /\ length nss = length l /\ (l = [] -> d kASCAL = None /\ d kAMISS = None /\ d kANAME = None).
Proof.
  intros Hr Ht N1 N2 Eo Hh S C Ea (A & EA & LA & FA). apply attr_some in EA; [|reflexivity].
  pose proof (ti_counts g c d Ht kNAUXV kA _ _ ltac:(cbn; tauto) Ea EA) as Q.
  assert (Hx : exists n, aux_read h n) by (pose proof (hr_aux _ _ _ _ Hh); destruct c; try congruence; tauto).
  destruct Hx as [n Hx]. assert (n = na).
  { pose proof (ar_n _ _ Hx) as K. rewrite <- (of_head d h) in K by (reflexivity || assumption). congruence. }
  subst n. destruct (aux_record c content ignore d Hr Ht h line na Hh S C Hx) as (l & O & F & Hd & L); [lia|exact N2|].
  destruct (column_lists _ A FA) as (nss & -> & Fn & Ln). exists l, nss. repeat (split; [assumption|]). rewrite map_length in Q. split; [lia|].
  intros ->. eapply absent_aux; eauto. rewrite Ea. now rewrite L.
Qed.
Ltac aux_cases l Ab := destruct l; [destruct (Ab eq_refl) as (? & ? & ?)|]; all_keys.
Lemma record1010 content ignore d : read_file content ignore = Ok (C1010, d) -> tidy g C1010 d -> exists r,
  ok1010 r /\ floats1010 r /\ has d (items1010 r) /\ exactly d (items1010 r) /\ items1010 (norm1010 g r) = map rw (items1010 r).
Proof.
  intros Hr Ht. assert (N1 : C1010 <> C2160) by discriminate. assert (N2 : C1010 <> C2310) by discriminate.
  destruct (file_parts C1010 content ignore d Hr Ht) as (h & line & Eo & Ed & S & C & Hh & Df & Dn & Hn).
  destruct (common_record C1010 ignore d Ht h line Hh S C Df Dn) as (rc & O1 & F1 & H1).
  destruct (vars_record C1010 ignore d Ht h line Hh S C) as (vs & O2 & F2 & H2).
  destruct (dx_record C1010 content ignore d Hr Ht h Eo Hn) as (dx & D3 & F3 & L3).
  destruct (xname_record C1010 content ignore d Hr Ht h line Hh S C Hn) as (xn & D4 & N4 & L4).
  destruct (C24_rectangular h C1010 content d ltac:(cbn; tauto) Ed) as (nv & xs & Ev & Ex & Fx & (V & EV & LV & FV) & HA).
  destruct HA as (na & Ena & HA); [discriminate|]. apply attr_some_int in Ena; [|reflexivity].
  destruct (aux_of C1010 content ignore d h line na _ Hr Ht ltac:(discriminate) N1 Eo Hh S C Ena HA) as (au & a & O5 & F5 & H5 & D5 & Fa & La & L5 & Ab).
  change (Z.of_nat (length dx) = Z.of_nat 1) in L3. apply Nat2Z.inj in L3. change (Z.of_nat (length xn) = Z.of_nat 1) in L4. apply Nat2Z.inj in L4.
  destruct dx as [|dx [|]]; try discriminate L3. destruct xn as [|xn [|]]; try discriminate L4.
  destruct (float_list xs Fx) as (x & -> & Fx'). destruct (column_lists _ V FV) as (v & -> & Fv & Lv). rewrite map_length in La, Lv.
  apply attr_some in Ex, EV; try reflexivity. apply attr_some_int in Ev; [|reflexivity]. inversion N4; subst. inversion F3 as [|? ? Fdx _]; subst.
  rewrite <- (of_store C1010 content d h kDX Ed eq_refl) in D3.
  exists (mk1010 rc vs au dx xn x a v). split; [|split; [|split; [|split]]].
  - unfold ok1010. cbn [r2_common r2_vars r2_aux r2_xname r2_v r2_x r2_a]. repeat (split; [assumption|]).
    rewrite map_length in LV. rewrite LV, (has_count d vs nv H2 Ev). split; [reflexivity|]. split; [exact La|].
    cbn [per_mark] in Lv. rewrite Nat.mul_1_r in Lv. exact Lv.
  - unfold floats1010. auto.
  - unfold items1010. cbn [r2_common r2_vars r2_aux r2_dx r2_xname r2_v r2_x r2_a]. has_all.
  - unfold exactly, items1010. cbn [r2_common r2_vars r2_aux r2_dx r2_xname r2_v r2_x r2_a]. aux_cases au Ab.
  - unfold items1010, norm1010. cbn [r2_common r2_vars r2_aux r2_dx r2_xname r2_v r2_x r2_a].
    rewrite norm_common_read, !norm_vars_read, head_float, nums_g, !numss_g by assumption. rewrite !map_app, rw_aux. reflexivity.
Qed.
Lemma record1020 content ignore d : read_file content ignore = Ok (C1020, d) -> tidy g C1020 d -> exists r,
  ok1020 r /\ floats1020 r /\ has d (items1020 r) /\ exactly d (items1020 r) /\ items1020 (norm1020 g r) = map rw (items1020 r).
Proof.
  intros Hr Ht. assert (N1 : C1020 <> C2160) by discriminate. assert (N2 : C1020 <> C2310) by discriminate.
  destruct (file_parts C1020 content ignore d Hr Ht) as (h & line & Eo & Ed & S & C & Hh & Df & Dn & Hn).
  destruct (common_record C1020 ignore d Ht h line Hh S C Df Dn) as (rc & O1 & F1 & H1).
  destruct (vars_record C1020 ignore d Ht h line Hh S C) as (vs & O2 & F2 & H2).
  destruct (dx_record C1020 content ignore d Hr Ht h Eo Hn) as (dx & D3 & F3 & L3).
  destruct (xname_record C1020 content ignore d Hr Ht h line Hh S C Hn) as (xn & D4 & N4 & L4).
  destruct (C24_rectangular h C1020 content d ltac:(cbn; tauto) Ed) as (nv & xs & Ev & Ex & Fx & (V & EV & LV & FV) & HA).
  destruct HA as (na & Ena & HA); [discriminate|]. apply attr_some_int in Ena; [|reflexivity].
  destruct (aux_of C1020 content ignore d h line na _ Hr Ht ltac:(discriminate) N1 Eo Hh S C Ena HA) as (au & a & O5 & F5 & H5 & D5 & Fa & La & L5 & Ab).
  assert (Hp : exists n, d kNVPM = Some (PInt n)).
  { destruct (opened C1020 content ignore h Eo) as (u & st & Er & ->).
    destruct (header_sets C1020 _ _ _ _ Er) as (_ & _ & _ & K & _). destruct (K eq_refl) as [n En]. exists n.
    now rewrite (of_head d (r_na st)) by (reflexivity || assumption). }
  destruct Hp as [pm Epm]. pose proof (ti_nvpm g C1020 d Ht pm Epm) as Hpm.
  change (Z.of_nat (length dx) = Z.of_nat 1) in L3. apply Nat2Z.inj in L3. change (Z.of_nat (length xn) = Z.of_nat 1) in L4. apply Nat2Z.inj in L4.
  destruct dx as [|dx [|]]; try discriminate L3. destruct xn as [|xn [|]]; try discriminate L4.
  destruct (float_list xs Fx) as (x & -> & Fx'). destruct (column_lists _ V FV) as (v & -> & Fv & Lv). rewrite map_length in La, Lv.
  apply attr_some in Ex, EV; try reflexivity. apply attr_some_int in Ev; [|reflexivity]. inversion N4; subst. inversion F3 as [|? ? Fdx _]; subst.
  rewrite <- (of_store C1020 content d h kDX Ed eq_refl) in D3.
  exists (mk1020 rc vs au dx (Z.to_nat pm) xn x a v). split; [|split; [|split; [|split]]].
  - unfold ok1020. cbn [r3_common r3_vars r3_aux r3_xname r3_v r3_x r3_a r3_nvpm]. repeat (split; [assumption|]). split; [lia|]. split; [assumption|].
    rewrite map_length in LV. rewrite LV, (has_count d vs nv H2 Ev). split; [reflexivity|]. split; [exact La|].
    unfold per_mark, attr in Lv. rewrite Epm in Lv. exact Lv.
  - unfold floats1020. auto.
  - unfold items1020. cbn [r3_common r3_vars r3_aux r3_dx r3_xname r3_v r3_x r3_a r3_nvpm]. rewrite Z2Nat.id by lia. has_all.
  - unfold exactly, items1020. cbn [r3_common r3_vars r3_aux r3_dx r3_xname r3_v r3_x r3_a r3_nvpm]. aux_cases au Ab.
  - unfold items1020, norm1020. cbn [r3_common r3_vars r3_aux r3_dx r3_xname r3_v r3_x r3_a r3_nvpm].
    rewrite norm_common_read, !norm_vars_read, head_float, nums_g, !numss_g by assumption. rewrite !map_app, rw_aux. reflexivity.
Qed.

(** ** 2010, 3010 and 4010 *)
Lemma shaped_list dims : forall v : pyv, shaped dims v -> exists t : nested num (length dims),
  v = nested_pv t /\ has_shape dims t /\ nested_pv (nested_map (data_num g) t) = map_nums g v.
Proof.
  induction dims as [|k dims IH]; intros v; cbn [shaped].
  - intros [x ->]. exists (NF x). repeat split.
  - intros (l & -> & L & F). assert (G : exists ts : list (nested num (length dims)), l = map nested_pv ts /\ Forall (has_shape dims) ts /\
      map nested_pv (map (nested_map (data_num g)) ts) = map (map_nums g) l).
    { clear L. induction F as [|w l W _ (ts & -> & Fs & E)]; [exists []; repeat split; constructor|].
      destruct (IH w W) as (t & -> & Ft & Et). exists (t :: ts). cbn [map]. rewrite E, Et. repeat split; constructor; assumption. }
    destruct G as (ts & -> & Fs & E). exists ts. rewrite map_length in L. split; [reflexivity|]. split; [split; assumption|].
    cbn [nested_map nested_pv map_nums length]. now rewrite E.
Qed.
Lemma blocks_list dims m (vs : list pyv) : Forall (blocks (shaped dims) m) vs -> exists ts : list (list (nested num (length dims))),
  vs = map (fun v => PList (map nested_pv v)) ts /\ Forall (fun v => length v = m /\ Forall (has_shape dims) v) ts /\
  map (fun v => PList (map nested_pv v)) (map (map (nested_map (data_num g))) ts) = map (map_nums g) vs.
Proof.
  induction 1 as [|v vs (l & -> & L & F) _ (ts & -> & Fs & E)]; [exists []; repeat split; constructor|].
  assert (G : exists t : list (nested num (length dims)), l = map nested_pv t /\ Forall (has_shape dims) t /\
      map nested_pv (map (nested_map (data_num g)) t) = map (map_nums g) l).
  { clear L E. induction F as [|w l W _ (t & -> & Ft & Et)]; [exists []; repeat split; constructor|].
    destruct (shaped_list dims w W) as (u & -> & Fu & Eu). exists (u :: t). cbn [map]. rewrite Et, Eu. repeat split; constructor; assumption. }
  destruct G as (t & -> & Ft & Et). exists (t :: ts). cbn [map map_nums]. rewrite Et, E. rewrite map_length in L. repeat split; constructor; auto.
Qed.
Lemma axes_of : forall (xs : list pyv) dxs ss, floats dxs -> Forall name_ok ss -> length dxs = length xs -> length ss = length xs ->
  Forall (fun v => exists x, v = PList x /\ x <> [] /\ Forall (of_type TFloat) x) xs ->
  exists l : list (axis num), dxs = map x_dx l /\ ss = map x_name l /\ xs = map nums_pv (map x_def l) /\ floats (map x_dx l) /\
    Forall (fun a => name_ok (x_name a) /\ x_def a <> []) l /\ Forall floats (map x_def l).
Proof.
  induction xs as [|v xs IH]; intros dxs ss Fd Fs Ld Ls F; destruct dxs as [|x dxs]; try discriminate; destruct ss as [|s ss]; try discriminate.
  - exists []. repeat split; constructor.
  - inversion Fd; inversion Fs; inversion F as [|? ? (y & -> & Ny & Fy) F']; subst. injection Ld as Ld. injection Ls as Ls.
    destruct (IH dxs ss) as (l & -> & -> & -> & G1 & G2 & G3); auto. destruct (float_list y Fy) as (ns & -> & Fn).
    exists (mkAxis x ns s :: l). cbn [map x_dx x_def x_name]. repeat split; try (constructor; auto).
    split; [assumption|]. intros E. apply Ny. cbn in E. now rewrite E.
Qed.
Lemma norm_axes_dx l : floats (map x_dx l) -> map x_dx (map (norm_axis g) l) = map x_dx l.
Proof.
  induction l as [|a l IH]; intros F; [reflexivity|]. cbn [map] in *. inversion F as [|? ? F1 F2]; subst. rewrite IH by assumption. f_equal. cbn. now apply head_float.
Qed.
Lemma norm_axes_def l : map x_def (map (norm_axis g) l) = map (map (data_num g)) (map x_def l).
Proof. rewrite !map_map. reflexivity. Qed.
Lemma norm_axes_len l : map (fun a => len_pv (num:=num) (x_def a)) (map (norm_axis g) l) = map (fun a => len_pv (x_def a)) l.
Proof. rewrite map_map. apply map_ext. intros a. unfold len_pv. cbn. now rewrite map_length. Qed.
Lemma norm_axes_name l : map x_name (map (norm_axis g) l) = map x_name l.
Proof. rewrite map_map. reflexivity. Qed.
Lemma counts_eq (l : list pyv) (ax : list (axis num)) :
  Forall2 (fun n x => forall y, x = PList y -> n = PInt (Z.of_nat (length y))) l (map nums_pv (map x_def ax)) -> l = map (fun a => len_pv (x_def a)) ax.
Proof.
  revert l. induction ax as [|a ax IH]; intros l F; inversion F as [|n x l' xs K F']; subst; [reflexivity|]. cbn [map]. f_equal; [|now apply IH].
  rewrite (K _ eq_refl). unfold len_pv. now rewrite map_length.
Qed.
Lemma record2010 c content ignore d : In c [C2010; C3010; C4010] -> read_file content ignore = Ok (c, d) -> tidy g c d -> exists r,
  fam c (length (r4_nx r)) /\ ok2010 r /\ palindromic_def r /\ floats2010 r /\
  has d (items2010 r) /\ exactly d (items2010 r) /\ items2010 (norm2010 g r) = map rw (items2010 r).
Proof.
  intros Hc Hr Ht. assert (N1 : c <> C2160) by (cbn in Hc; intros ->; intuition discriminate).
  assert (N2 : c <> C2310) by (cbn in Hc; intros ->; intuition discriminate). assert (N0 : c <> C1001) by (cbn in Hc; intros ->; intuition discriminate).
  destruct (file_parts c content ignore d Hr Ht) as (h & line & Eo & Ed & S & C & Hh & Df & Dn & Hn).
  destruct (common_record c ignore d Ht h line Hh S C Df Dn) as (rc & O1 & F1 & H1).
  destruct (vars_record c ignore d Ht h line Hh S C) as (vs & O2 & F2 & H2).
  destruct (dx_record c content ignore d Hr Ht h Eo Hn) as (dx & D3 & F3 & L3).
  assert (L3' : Z.of_nat (length dx) = (cls_ffi c / 1000)%Z) by (destruct c; try congruence; exact L3). clear L3. rename L3' into L3.
  destruct (xname_record c content ignore d Hr Ht h line Hh S C Hn) as (xn & D4 & N4 & L4).
  destruct (C25_blocks h c content d Hc Ed) as (nv & na & nxz & V & marks & Ev & Ena & Enx & EV & LV & FV & HA & HX).
  apply attr_some_int in Ena; [|reflexivity].
  destruct (aux_of c content ignore d h line na _ Hr Ht N0 N1 Eo Hh S C Ena HA) as (au & a & O5 & F5 & H5 & D5 & Fa & La & L5 & Ab).
  destruct (opened c content ignore h Eo) as (u & st & Er & Eh).
  assert (Er' : readHeader_2010 ignore (mkR (readlines content) na_new) = Ok (u, st)) by (cbn in Hc; destruct Hc as [<- | [<- | [<- | []]]]; exact Er).
  destruct (header_2010 _ _ _ _ Er') as (niv & dx' & nx & nxdef & xs & Gn & _ & _ & _ & Gx & Tx & Lx & Gd & Td & Ld & GX & LX & FX). rewrite <- Eh in *.
  rewrite Hn in Gn. injection Gn as <-.
  assert (Hniv : (2 <= cls_ffi c / 1000 <= 4)%Z) by (cbn in Hc; destruct Hc as [<- | [<- | [<- | []]]]; vm_compute; split; discriminate).
  set (niv := (cls_ffi c / 1000)%Z) in *. specialize (Lx ltac:(lia)). specialize (Ld ltac:(lia)). specialize (LX ltac:(lia)).
  assert (Sx : d kNX = h kNX) by (eapply of_store; [exact Ed|cbn in Hc; destruct Hc as [<- | [<- | [<- | []]]]; reflexivity]).
  assert (Sd : d kDX = h kDX) by (eapply of_store; [exact Ed|cbn in Hc; destruct Hc as [<- | [<- | [<- | []]]]; reflexivity]).
  rewrite <- Sd in D3. rewrite <- Sx in Gx. rewrite <- (of_head d h) in Gd by (reflexivity || assumption).
  assert (nx = map PInt nxz) as ->. { unfold attr in Enx. rewrite Gx in Enx. cbn in Enx. congruence. } rewrite map_length in Lx.
  destruct dx as [|dx dxs]; [cbn [length] in L3; lia|]. destruct xn as [|xn ss]; [cbn [length] in L4; lia|]. cbn [length] in L3, L4.
  inversion F3 as [|? ? Fdx Fdxs]; subst. inversion N4 as [|? ? Nx Nss]; subst.
  destruct (axes_of xs dxs ss Fdxs Nss) as (ax & -> & -> & -> & Gf & Gn & Gdef); [lia|lia|exact FX|]. rewrite !map_length in *.
  assert (HX' : exists x, d kX = Some (PList (map nums_pv (x :: map x_def ax))) /\ floats x /\ length x = marks).
  { destruct HX as [[-> EX] | (p & q & xr & EX & EX' & Lq & Fq)].
    - exists []. split; [|split; [constructor|reflexivity]]. unfold attr in EX at 2. rewrite GX in EX. apply attr_some in EX; [|reflexivity]. exact EX.
    - unfold attr in EX. rewrite GX in EX. assert (p = []) by congruence. assert (xr = map nums_pv (map x_def ax)) by congruence. subst p xr.
      destruct (float_list q Fq) as (x & -> & Fx). rewrite map_length in Lq. exists x. split; [|auto]. apply attr_some in EX'; [|reflexivity]. exact EX'. }
  destruct HX' as (x & DX & Fx & Lmk). clear HX.
  destruct (blocks_list _ _ _ FV) as (v & -> & Fv & Egv).
  apply attr_some in EV; [|reflexivity]. apply attr_some_int in Ev; [|reflexivity].
  destruct (ti_axes g c d Ht Hc _ _ _ DX Gd) as [Hpal Hcnt]. apply counts_eq in Hcnt. subst nxdef.
  set (nxn := map Z.to_nat nxz) in *. assert (Lnx : length nxn = length nxz) by (unfold nxn; apply map_length).
  assert (Pos : Forall (fun z => (0 < z)%Z) nxz).
  { apply Forall_forall. intros z I. exact (ti_nx g c d Ht Hc _ z Gx (in_map PInt _ _ I)). }
  assert (Hnxe : map (fun n => PInt (num:=num) (Z.of_nat n)) nxn = map PInt nxz).
  { unfold nxn. rewrite map_map. apply map_ext_in. intros z I. rewrite Forall_forall in Pos. rewrite Z2Nat.id; [reflexivity|]. specialize (Pos _ I). lia. }
  assert (Hnv : Z.of_nat (Datatypes.S (length nxn)) = niv) by (rewrite Lnx; lia).
  exists (mk2010 rc vs au dx xn nxn ax x a v).
  split; [|split; [|split; [|split; [|split; [|split]]]]].
  - cbn [r4_nx]. unfold fam. subst niv. clear -Hnv Hc. cbn in Hc. destruct Hc as [<- | [<- | [<- | []]]].
    + change (cls_ffi C2010 / 1000)%Z with 2%Z in Hnv. left. split; [reflexivity|lia].
    + change (cls_ffi C3010 / 1000)%Z with 3%Z in Hnv. right; left. split; [reflexivity|lia].
    + change (cls_ffi C4010 / 1000)%Z with 4%Z in Hnv. right; right. split; [reflexivity|lia].
  - unfold ok2010. cbn [r4_common r4_vars r4_aux r4_xname r4_v r4_x r4_a r4_nx r4_axes]. repeat (split; [assumption|]). split; [lia|]. split; [lia|].
    split; [unfold nxn; apply Forall_map; eapply Forall_impl; [|exact Pos]; cbv beta; intros; lia|]. repeat (split; [assumption|]).
    rewrite map_length in LV. rewrite LV, (has_count d vs nv H2 Ev). split; [reflexivity|]. rewrite Lmk. auto.
  - unfold palindromic_def. cbn [r4_axes]. rewrite <- map_rev in *. clear -Hpal. revert Hpal. generalize (rev ax). revert ax.
    induction ax as [|b ax IH]; intros l E; destruct l as [|b' l]; try discriminate; [reflexivity|]. cbn [map] in *. injection E as E1 E2.
    apply Nat2Z.inj in E1. rewrite E1. f_equal. now apply IH.
  - unfold floats2010. cbn [r4_common r4_vars r4_aux r4_dx r4_axes]. repeat (split; [assumption|]). split; [|auto]. now apply Forall_map.
  - unfold items2010. cbn [r4_common r4_vars r4_aux r4_dx r4_xname r4_v r4_x r4_a r4_nx r4_axes]. rewrite Hnv, Hnxe.
    replace (niv * 1000 + 10)%Z with (cls_ffi c) by (subst niv; cbn in Hc; destruct Hc as [<- | [<- | [<- | []]]]; reflexivity).
    has_all.
  - assert (Ab2 : forall k, ReadFrame.key_in k (header_keys C2010 ++ stored C2010) = false -> d k = None).
    { intros k Kk. eapply (absent c content ignore d); eauto. cbn in Hc; destruct Hc as [<- | [<- | [<- | []]]]; exact Kk. }
    unfold exactly, items2010. cbn [r4_common r4_vars r4_aux r4_dx r4_xname r4_v r4_x r4_a r4_nx r4_axes].
    destruct au; [destruct (Ab eq_refl) as (? & ? & ?)|]; intros k K1 K2 K3; destruct k;
      first [in_keys K1 K2 K3 | apply Ab2; reflexivity].
  - unfold items2010, norm2010. cbn [r4_common r4_vars r4_aux r4_dx r4_xname r4_v r4_x r4_a r4_nx r4_axes].
    rewrite norm_common_read, !norm_vars_read, head_float, norm_axes_dx, norm_axes_def, norm_axes_len, norm_axes_name by assumption.
    rewrite Egv. change (map (data_num g) x :: map (map (data_num g)) (map x_def ax)) with (map (map (data_num g)) (x :: map x_def ax)).
    rewrite !numss_g by (assumption || now constructor). rewrite !map_app, rw_aux. reflexivity.
Qed.

(** ** 2110 *)
Local Notation mark := (mark num).
Lemma marks_list ks (xs : list pyv) : Forall2 (mark_with_points is_num) ks xs -> exists ms : list (mark number),
  xs = map (mark_pv pv) ms /\ map (fun m => length (m_in m)) ms = ks /\ map (mark_pv pv) (map (norm_mark g) ms) = map (map_nums g) xs.
Proof.
  induction 1 as [|k v ks xs (x & pts & -> & [y ->] & Cp) _ (ms & -> & <- & E)]; [exists []; repeat split|].
  apply column_list in Cp as (ns & Ep & Fn & <-). injection Ep as ->. exists (mkMark (NF y) ns :: ms). split; [reflexivity|]. split; [reflexivity|].
  cbn [map]. rewrite E. f_equal. unfold mark_pv, norm_mark. cbn [m_x m_in]. rewrite nums_g by assumption. reflexivity.
Qed.
Lemma ragged_list ks (v : pyv) : ragged ks v -> exists nss, v = PList (map nums_pv nss) /\ Forall floats nss /\ map (@length _) nss = ks.
Proof.
  intros (l & -> & F). induction F as [|k w ks l Cw _ (nss & E & Fn & <-)]; [exists []; repeat split; constructor|].
  apply column_list in Cw as (ns & -> & F1 & <-). injection E as ->. exists (ns :: nss). repeat split. now constructor.
Qed.
Lemma raggeds_list ks (vs : list pyv) : Forall (ragged ks) vs -> exists v, vs = map (fun x => PList (map nums_pv x)) v /\
  Forall (fun nss => map (@length _) nss = ks) v /\ map (fun x => PList (map nums_pv x)) (map (map (map (data_num g))) v) = map (map_nums g) vs.
Proof.
  induction 1 as [|w vs K _ (v & -> & F & E)]; [exists []; repeat split; constructor|].
  apply ragged_list in K as (nss & -> & Fn & L). exists (nss :: v). cbn [map]. rewrite E, numss_g by assumption. repeat split. now constructor.
Qed.
Lemma same_lengths {A B} (P : A -> B -> Prop) (f : A -> nat) (h : B -> nat) (Q : forall a b, h b = f a -> P a b) :
  forall la lb, map h lb = map f la -> Forall2 P la lb.
Proof. induction la as [|x la IH]; intros [|y lb] E; try discriminate; [constructor|]. cbn in E. injection E as E1 E2. constructor; auto. Qed.
Lemma record2110 content ignore d : read_file content ignore = Ok (C2110, d) -> tidy g C2110 d -> exists r,
  ok2110 g r /\ floats2110 r /\ has d (items2110 r) /\ exactly d (items2110 r) /\ items2110 (norm2110 g r) = map rw (items2110 r).
Proof.
  intros Hr Ht. assert (N1 : C2110 <> C2160) by discriminate. assert (N2 : C2110 <> C2310) by discriminate.
  destruct (file_parts C2110 content ignore d Hr Ht) as (h & line & Eo & Ed & S & C & Hh & Df & Dn & Hn).
  destruct (common_record C2110 ignore d Ht h line Hh S C Df Dn) as (rc & O1 & F1 & H1).
  destruct (vars_record C2110 ignore d Ht h line Hh S C) as (vs & O2 & F2 & H2).
  destruct (dx_record C2110 content ignore d Hr Ht h Eo Hn) as (dx & D3 & F3 & L3).
  destruct (xname_record C2110 content ignore d Hr Ht h line Hh S C Hn) as (xn & D4 & N4 & L4).
  destruct (C25_own_sizes h C2110 content d ltac:(cbn; tauto) Ed) as (nv & na & nx & xs & V & A & Ev & Ena & Enx & Ex & Fx & EV & LV & FV & EA & [LA FA] & HI).
  apply attr_some_int in Ena; [|reflexivity].
  assert (HA : columns na (length nx) (attr d kA)) by (exists A; auto).
  destruct (aux_of C2110 content ignore d h line na _ Hr Ht ltac:(discriminate) N1 Eo Hh S C Ena HA) as (au & a & O5 & F5 & H5 & D5 & Fa & La & L5 & Ab).
  change (Z.of_nat (length dx) = Z.of_nat 2) in L3. apply Nat2Z.inj in L3. change (Z.of_nat (length xn) = Z.of_nat 2) in L4. apply Nat2Z.inj in L4.
  destruct dx as [|dx0 [|dx1 [|]]]; try discriminate L3. destruct xn as [|xn0 [|xn1 [|]]]; try discriminate L4.
  destruct (marks_list _ xs Fx) as (x & -> & Lx & Egx). destruct (raggeds_list _ V FV) as (v & -> & Lv & Egv).
  apply attr_some in Ex, EV, Enx, EA; try reflexivity. apply attr_some_int in Ev; [|reflexivity].
  inversion N4 as [|? ? Nx0 N4']; subst. inversion N4'; subst. inversion F3 as [|? ? Fd0 F3']; subst. inversion F3' as [|? ? Fd1 _]; subst.
  rewrite <- (of_store C2110 content d h kDX Ed eq_refl) in D3.
  destruct (ti_sizes g C2110 d Ht ltac:(cbn; tauto)) as [T1 T2].
  assert (Hau : au <> []).
  { intros ->. apply T1. rewrite (H5 kNAUXV (len_pv (@nil var)) (or_introl eq_refl)). reflexivity. }
  destruct a as [|a0 a]; [destruct au; [congruence|discriminate]|].
  rewrite D5 in EA. injection EA as <-. specialize (HI _ _ eq_refl).
  specialize (T2 (map pv a0) (map nums_pv a)).
  assert (Sz : Forall2 (fun n z => (0 <= z)%Z /\ num_trunc (g (val n)) = Some z) a0 nx).
  { pose proof (Forall_inv Fa) as Fa0. assert (T3 : forall y, In (PNum y) (map pv a0) -> exists n, (0 <= n)%Z /\ num_trunc y = Some n /\ num_trunc (g y) = Some n)
      by (intros y I; apply T2; [exact D5|exact I]).
    clear -HI Fa0 T3. revert nx HI T3. induction Fa0 as [|n ns [y ->] _ IH]; intros nx HI T3; inversion HI as [|? z ? nx' E1 E2]; subst; constructor.
    - cbn in E1. destruct (T3 y (or_introl eq_refl)) as (n & Pn & En & Eg). rewrite En in E1. injection E1 as <-. auto.
    - apply IH; [exact E2|]. intros w I. apply T3. now right. }
  assert (Pz : Forall (fun z => (0 <= z)%Z) nx) by (clear -Sz; induction Sz as [|? ? ? ? [? _] _ IH]; constructor; auto).
  assert (Hnx : map (fun m => len_pv (num:=num) (m_in m)) x = map PInt nx).
  { clear -Lx Pz. revert x Lx. induction Pz as [|z nx P _ IH]; intros [|m x] E; try discriminate; [reflexivity|]. cbn [map] in *. injection E as E1 E2.
    unfold len_pv at 1. rewrite E1, Z2Nat.id by assumption. f_equal. now apply IH. }
  assert (Lmk : length x = length nx) by (apply (f_equal (@length _)) in Lx; now rewrite !map_length in Lx).
  exists (mk2110 rc vs au (dx0, dx1) (xn0, xn1) x (a0 :: a) v). split; [|split; [|split; [|split]]].
  - unfold ok2110. cbn [r5_common r5_vars r5_aux r5_xname r5_v r5_x r5_a fst snd nth]. repeat (split; [assumption|]).
    rewrite map_length in LV. rewrite LV, (has_count d vs nv H2 Ev). split; [reflexivity|]. rewrite Lmk. split; [exact La|]. split.
    + unfold counts_ok. clear -Sz Lx. revert x Lx. induction Sz as [|n z ns nx [Pz En] _ IH]; intros [|m x] E; try discriminate; constructor; cbn [map] in E; injection E as E1 E2.
      * rewrite E1, Z2Nat.id by assumption. exact En.
      * now apply IH.
    + eapply Forall_impl; [|exact Lv]. intros nss E. unfold inner_ok. apply (same_lengths _ (fun m => length (m_in m)) (@length _)); [auto|]. now rewrite E, Lx.
  - unfold floats2110. cbn. auto.
  - unfold items2110. cbn [r5_common r5_vars r5_aux r5_dx r5_xname r5_v r5_x r5_a fst snd]. rewrite Hnx. has_all.
  - unfold exactly, items2110. cbn [r5_common r5_vars r5_aux r5_dx r5_xname r5_v r5_x r5_a]. aux_cases au Ab.
  - unfold items2110, norm2110. cbn [r5_common r5_vars r5_aux r5_dx r5_xname r5_v r5_x r5_a fst snd].
    rewrite norm_common_read, !norm_vars_read, !head_float, numss_g by assumption. rewrite Egx, Egv.
    replace (map (fun m => len_pv (num:=num) (m_in m)) (map (norm_mark g) x)) with (map (fun m => len_pv (num:=num) (m_in m)) x)
      by (rewrite map_map; apply map_ext; intros m; unfold len_pv; cbn; now rewrite map_length).
    rewrite !map_app, rw_aux. reflexivity.
Qed.

(** ** 2160 *)
Lemma sizes_of (a0 : list number) nx : floats a0 -> Forall2 (fun v z => int_of v = Ok z) (map pv a0) nx ->
  (forall y, In (PNum y) (map pv a0) -> exists n, (0 <= n)%Z /\ num_trunc y = Some n /\ num_trunc (g y) = Some n) ->
  Forall2 (fun n z => (0 <= z)%Z /\ num_trunc (g (val n)) = Some z) a0 nx.
Proof.
  intros F. revert nx. induction F as [|n ns [y ->] _ IH]; intros nx HI T3; inversion HI as [|? z ? nx' E1 E2]; subst; constructor.
  - cbn in E1. destruct (T3 y (or_introl eq_refl)) as (n & Pn & En & Eg). rewrite En in E1. injection E1 as <-. auto.
  - apply IH; [exact E2|]. intros w I. apply T3. now right.
Qed.
Lemma cvars_of : forall (lz cm : list pyv) ss, Forall (of_type TInt) lz -> Forall is_word cm -> length lz = length ss -> length cm = length ss ->
  exists l, lz = map (fun c => PInt (cv_len c)) l /\ cm = map PStr (map cv_miss l) /\ ss = map cv_name l /\ Forall (fun c => word (cv_miss c)) l.
Proof.
  induction lz as [|v lz IH]; intros cm ss Fz Fc L1 L2; destruct ss as [|s ss]; try discriminate; destruct cm as [|w cm]; try discriminate.
  - exists []. repeat split; constructor.
  - inversion Fz as [|? ? [z ->] Fz']; inversion Fc as [|? ? (t & -> & Wt) Fc']; subst. injection L1 as L1. injection L2 as L2.
    destruct (IH cm ss Fz' Fc' L1 L2) as (l & -> & -> & -> & F). exists (mkCvar z t s :: l). repeat split; auto.
Qed.
Lemma caux_record content ignore d h line : read_file content ignore = Ok (C2160, d) -> tidy g C2160 d ->
  openNAFile_r content ignore = Ok (C2160, h) -> header_read C2160 h line ignore -> same_head d h -> clean_na h -> exists (l : list var) (lc : list cvar),
  auxs_ok l /\ float_vars l /\ l <> [] /\ lc <> [] /\ Forall (fun c => token_ok (cv_miss c) /\ name_ok (cv_name c)) lc /\
  has d [(kNAUXV, PInt (Z.of_nat (length l + length lc))); (kNAUXC, len_pv lc); (kASCAL, nums_pv (map v_scal l));
    (kAMISS, PList (map pv (map v_miss l) ++ map PStr (map cv_miss lc)));
    (kLENA, PList (repeat PNone (length l) ++ map (fun c => PInt (cv_len c)) lc)); (kANAME, strs_pv (map v_name l ++ map cv_name lc))].
Proof.
  intros Hr Ht Eo Hh S C. pose proof (hr_aux _ _ _ _ Hh) as (n & nc & [C1 C2 C3]).
  destruct (opened C2160 content ignore h Eo) as (u & st & E & Eh). destruct (header_sets _ _ _ _ _ E) as (_ & _ & _ & _ & K). destruct (K eq_refl) as (_ & n' & nc' & K1 & K2 & K3).
  rewrite <- Eh in K1, K2, K3. rewrite C1 in K1. rewrite C2 in K2. injection K1 as <-. injection K2 as <-.
  destruct (ti_sizes g C2160 d Ht ltac:(cbn; tauto)) as [T1 _].
  rewrite <- (of_head d h) in C1, C2 by (reflexivity || assumption).
  destruct (C25_own_sizes h C2160 content d ltac:(cbn; tauto)) as (nv & na & nx & xs & V & A & _ & Ena & _ & _ & _ & _ & _ & _ & EA & [LA _] & _).
  { destruct (frame_keys C2160 content ignore d Hr) as (h' & E' & Ed & _). rewrite Eo in E'. injection E' as <-. exact Ed. }
  apply attr_some_int in Ena; [|reflexivity]. rewrite C1 in Ena. injection Ena as <-. apply attr_some in EA; [|reflexivity].
  pose proof (ti_counts g C2160 d Ht kNAUXV kA _ _ ltac:(cbn; tauto) C1 EA) as Q.
  assert (Hp : (0 < n)%Z) by (assert (n <> 0)%Z by congruence; lia).
  destruct (C3 Hp) as (vs & vm & cm & vn & V2 & V3 & V4 & P1 & P2 & L1 & L2 & L3 & L4 & Tf & Tm & _ & Tn & Tw). destruct (K3 Hp) as (lz & Kz & Tz & Lz).
  destruct (names_of C2160 d Ht h kANAME vn) as (ss & -> & D4 & N); auto; [cbn; tauto|].
  rewrite <- (of_head d h) in V2, V3, Kz by (reflexivity || assumption).
  pose proof (ti_scal g C2160 d Ht _ _ C1 V2) as Q1. rewrite C2 in Q1.
  pose proof (ti_counts g C2160 d Ht kNAUXV kAMISS _ _ ltac:(cbn; tauto) C1 V3) as Q2.
  pose proof (ti_counts g C2160 d Ht kNAUXV kLENA _ _ ltac:(cbn; tauto) C1 Kz) as Q3.
  rewrite app_length in Q2, Q3. rewrite repeat_length in Q3. rewrite map_length in L4.
  set (na := Z.to_nat (n - nc)) in *. assert (Hs : ss = firstn na ss ++ skipn na ss) by (symmetry; apply firstn_skipn).
  assert (Lf : length (firstn na ss) = na) by (apply firstn_length_le; lia). assert (Ls : length (skipn na ss) = Z.to_nat nc) by (rewrite skipn_length; lia).
  rewrite Hs in D4, N. apply Forall_app in N as [N1 N2]. destruct (ti_chars g C2160 d Ht eq_refl) as (_ & _ & T2 & _). pose proof (fun s => T2 _ s V3) as T2'. clear T2. rename T2' into T2.
  destruct (vars_of vs vm (firstn na ss)) as (l & E1 & E2 & E3 & F); auto; try lia.
  destruct (cvars_of lz cm (skipn na ss)) as (lc & E4 & E5 & E6 & Fc); auto; try lia.
  rewrite E3 in N1, Lf. rewrite E6 in N2, Ls. rewrite map_length in Lf, Ls. exists l, lc.
  split; [now rewrite Forall_map in N1|]. split; [exact F|]. split; [destruct l; [cbn in Lf; lia|discriminate]|]. split; [destruct lc; [cbn in Ls; lia|discriminate]|]. split.
  - rewrite Forall_map in N2. rewrite Forall_forall in Fc, N2 |- *. intros x I. split; [|now apply N2]. split; [now apply Fc|]. apply T2.
    rewrite E5. apply in_or_app. right. now apply in_map, in_map.
  - assert (En : n = Z.of_nat (length l + length lc)) by lia. assert (Enc : nc = Z.of_nat (length lc)) by lia.
    rewrite E1 in V2. rewrite E2, E5 in V3. rewrite E3, E6 in D4. rewrite E4, <- Lf in Kz. rewrite En in C1. rewrite Enc in C2. hs.
Qed.
Lemma marks_words ks (xs : list pyv) : Forall2 (mark_with_points is_word) ks xs -> exists ms : list (mark str),
  xs = map (mark_pv PStr) ms /\ map (fun m => length (m_in m)) ms = ks /\ Forall (fun m => word (m_x m)) ms /\
  map (mark_pv PStr) (map (fun m => mkMark (m_x m) (map (data_num g) (m_in m))) ms) = map (map_nums g) xs.
Proof.
  induction 1 as [|k v ks xs (x & pts & -> & (y & -> & Wy) & Cp) _ (ms & -> & <- & F & E)]; [exists []; repeat split; constructor|].
  apply column_list in Cp as (ns & Ep & Fn & <-). injection Ep as ->. exists (mkMark y ns :: ms). split; [reflexivity|]. split; [reflexivity|]. split; [now constructor|].
  cbn [map]. rewrite E. f_equal. unfold mark_pv. cbn [m_x m_in]. rewrite nums_g by assumption. reflexivity.
Qed.
Lemma str_columns m (C : list pyv) : Forall (str_column m) C -> exists ca, C = map strs_pv ca /\ Forall (fun a => length a = m) ca.
Proof.
  induction 1 as [|v C (l & -> & <- & F) _ (ca & -> & K)]; [exists []; repeat constructor|].
  assert (G : exists ss, l = map PStr ss) by (clear -F; induction F as [|v l [s ->] _ [ss ->]]; [now exists []|now exists (s :: ss)]).
  destruct G as [ss ->]. exists (ss :: ca). split; [reflexivity|]. constructor; [now rewrite map_length|exact K].
Qed.
Lemma strs_g ca : map (map_nums g) (map strs_pv ca) = map (strs_pv (num:=num)) ca.
Proof.
  rewrite map_map. apply map_ext. intros l. unfold strs_pv. cbn [map_nums]. f_equal. rewrite map_map. reflexivity.
Qed.
Lemma record2160 content ignore d : read_file content ignore = Ok (C2160, d) -> tidy g C2160 d -> exists r,
  ok2160 g r /\ floats2160 r /\ has d (items2160 r) /\ exactly d (items2160 r) /\ items2160 (norm2160 g r) = map rw (items2160 r).
Proof.
  intros Hr Ht.
  destruct (file_parts C2160 content ignore d Hr Ht) as (h & line & Eo & Ed & S & C & Hh & Df & Dn & Hn).
  destruct (common_record C2160 ignore d Ht h line Hh S C Df Dn) as (rc & O1 & F1 & H1).
  destruct (vars_record C2160 ignore d Ht h line Hh S C) as (vs & O2 & F2 & H2).
  destruct (dx_record C2160 content ignore d Hr Ht h Eo Hn) as (dx & D3 & F3 & L3).
  destruct (xname_record C2160 content ignore d Hr Ht h line Hh S C Hn) as (xn & D4 & N4 & L4).
  destruct (caux_record content ignore d h line Hr Ht Eo Hh S C) as (au & ca & O5 & F5 & Na & Nc & O6 & H5).
  destruct (C25_own_sizes h C2160 content d ltac:(cbn; tauto) Ed) as (nv & na & nx & xs & V & A & Ev & Ena & Enx & Ex & Fx & EV & LV & FV & EA & [LA FA] & HI).
  destruct (read_chars h content d Ed) as (A' & EA' & CA).
  apply attr_some in Ex, EV, Enx, EA; try reflexivity. apply attr_some_int in Ev, Ena; try reflexivity. rewrite EA in EA'. injection EA' as <-.
  destruct (opened C2160 content ignore h Eo) as (u & st & Es & Eh). destruct (header_sets _ _ _ _ _ Es) as (_ & _ & _ & _ & K). destruct (K eq_refl) as ((lx & Dl) & _). rewrite <- Eh in Dl.
  rewrite <- (of_head d h) in Dl by (reflexivity || assumption).
  change (Z.of_nat (length dx) = Z.of_nat 1) in L3. apply Nat2Z.inj in L3. change (Z.of_nat (length xn) = Z.of_nat 2) in L4. apply Nat2Z.inj in L4.
  destruct dx as [|dx0 [|]]; try discriminate L3. destruct xn as [|xn0 [|xn1 [|]]]; try discriminate L4.
  destruct (marks_words _ xs Fx) as (x & -> & Lx & Wx & Egx). destruct (raggeds_list _ V FV) as (v & -> & Lv & Egv).
  inversion N4 as [|? ? Nx0 N4']; subst. inversion N4'; subst. inversion F3 as [|? ? Fd0 F3']; subst.
  rewrite <- (of_store C2160 content d (r_na st) kDX Ed eq_refl) in D3.
  destruct (ti_sizes g C2160 d Ht ltac:(cbn; tauto)) as [T1 T2]. destruct (ti_chars g C2160 d Ht eq_refl) as (_ & T3 & _ & T4).
  pose proof (H5 kNAUXV _ ltac:(now left)) as E5. rewrite Ena in E5. injection E5 as E5. subst na. rewrite Nat2Z.id in LA.
  pose proof (H5 kNAUXC _ ltac:(right; now left)) as E6.
  assert (Hsp : exists B Cc, A = B ++ Cc /\ length B = length au /\ length Cc = length ca /\ Forall (column (length nx)) B /\ Forall (str_column (length nx)) Cc).
  { destruct FA as [[Z0 FA] | (nc & B & Cc & Enc & Hlt & -> & LC & FB & FC)].
    - rewrite Z0. exists (firstn (length au) A), (skipn (length au) A). rewrite firstn_skipn, skipn_length, firstn_length_le by lia.
      rewrite <- (firstn_skipn (length au) A) in FA. apply Forall_app in FA as [FA1 FA2]. repeat split; auto; try lia.
      eapply Forall_impl; [|exact FA2]. intros w (l & -> & Ll & _). exists l. destruct l; [|discriminate]. repeat constructor.
    - unfold attr in Enc. rewrite E6 in Enc. injection Enc as <-. rewrite Nat2Z.id in LC. exists B, Cc. rewrite app_length in LA. repeat split; auto; lia. }
  destruct Hsp as (B & Cc & -> & LB & LC & FB & FC).
  destruct (column_lists _ B FB) as (a & -> & Fa & La). destruct (str_columns _ Cc FC) as (cs & -> & Lc). rewrite map_length in LB, LC.
  destruct a as [|a0 a]; [destruct au; [congruence|discriminate]|]. specialize (HI _ _ eq_refl).
  pose proof (sizes_of a0 nx (Forall_inv Fa) HI (fun y I => T2 _ _ y EA I)) as Sz.
  assert (Pz : Forall (fun z => (0 <= z)%Z) nx) by (clear -Sz; induction Sz as [|? ? ? ? [? _] _ IH]; constructor; auto).
  assert (Hnx : map (fun m => len_pv (num:=num) (m_in m)) x = map PInt nx).
  { clear -Lx Pz. revert x Lx. induction Pz as [|z nx P _ IH]; intros [|m x] E; try discriminate; [reflexivity|]. cbn [map] in *. injection E as E1 E2.
    unfold len_pv at 1. rewrite E1, Z2Nat.id by assumption. f_equal. now apply IH. }
  assert (Lmk : length x = length nx) by (apply (f_equal (@length _)) in Lx; now rewrite !map_length in Lx).
  exists (mk2160 rc vs au ca dx0 (NF lx) (xn0, xn1) x (a0 :: a) cs v). split; [|split; [|split; [|split]]].
  - unfold ok2160. cbn [r6_common r6_vars r6_aux r6_caux r6_xname r6_v r6_x r6_a r6_ca fst snd nth]. repeat (split; [assumption|]). split; [|split; [|split; [|split; [|split; [|split; [|split]]]]]].
    + rewrite Forall_forall in Wx |- *. intros m I. split; [now apply Wx|]. eapply T3; [exact Ex|]. apply (in_map (mark_pv PStr)) in I. exact I.
    + exact LB.
    + exact LC.
    + rewrite map_length in LV. now rewrite LV, (has_count d vs nv H2 Ev).
    + rewrite Lmk. exact La.
    + rewrite Lmk. rewrite Forall_forall in Lc |- *. intros l I. split; [now apply Lc|]. apply Forall_forall. intros s J.
      assert (I1 : In (PList (map (PStr (num:=num)) l)) (map nums_pv (a0 :: a) ++ map strs_pv cs)) by (apply in_or_app; right; apply (in_map (strs_pv (num:=num))) in I; exact I).
      apply (in_map (PStr (num:=num))) in J. destruct (T4 _ _ _ EA I1 J) as (P1 & P2 & P3). pose proof (CA _ _ I1 J) as P4. split; [|auto]. split; [exact P4|exact P1].
    + unfold counts_ok. clear -Sz Lx. revert x Lx. induction Sz as [|n z ns nx [Pz En] _ IH]; intros [|m x] E; try discriminate; constructor; cbn [map] in E; injection E as E1 E2.
      * rewrite E1, Z2Nat.id by assumption. exact En.
      * now apply IH.
    + eapply Forall_impl; [|exact Lv]. intros nss E. unfold inner_ok. apply (same_lengths _ (fun m => length (m_in m)) (@length _)); [auto|]. now rewrite E, Lx.
  - unfold floats2160. cbn. repeat split; try assumption; try apply F1. eexists; reflexivity.
  - unfold items2160. cbn [r6_common r6_vars r6_aux r6_caux r6_dx r6_lenx r6_xname r6_v r6_x r6_a r6_ca fst snd]. rewrite Hnx.
    apply has_app; split; [assumption|]. apply has_app; split; [assumption|].
    match goal with |- has _ (?a :: ?b :: ?c :: ?e :: ?f :: ?i :: ?r) => change (has d ([a; b; c; e; f; i] ++ r)) end. apply has_app; split; [assumption|]. hs.
  - unfold exactly, items2160. cbn [r6_common r6_vars r6_aux r6_caux r6_dx r6_xname r6_v r6_x r6_a]. all_keys.
  - unfold items2160, norm2160. cbn [r6_common r6_vars r6_aux r6_caux r6_dx r6_lenx r6_xname r6_v r6_x r6_a r6_ca fst snd].
    rewrite norm_common_read, !norm_vars_read, !head_float by (assumption || (eexists; reflexivity)). rewrite Egx, Egv.
    assert (Ega : map nums_pv (map (map (data_num g)) (a0 :: a)) ++ map strs_pv cs = map (map_nums g) (map nums_pv (a0 :: a) ++ map strs_pv cs)).
    { rewrite map_app, strs_g. f_equal. pose proof (numss_g (a0 :: a) Fa) as G. cbn [map_nums] in G. congruence. }
    rewrite Ega.
    replace (map (fun m => len_pv (num:=num) (m_in m)) (map (fun m => mkMark (m_x m) (map (data_num g) (m_in m))) x)) with (map (fun m => len_pv (num:=num) (m_in m)) x)
      by (rewrite map_map; apply map_ext; intros m; unfold len_pv; cbn; now rewrite map_length).
    rewrite !(map_app rw). reflexivity.
Qed.

(** ** 2310 *)
Lemma combine_pv (x a : list number) : map (fun p => PList [fst p; PList [snd p]]) (combine (map pv x) (map pv a)) =
  map (fun p => PList [pv (fst p); nums_pv [snd p]]) (combine x a).
Proof. revert a. induction x as [|u x IH]; intros [|v a]; try reflexivity. cbn [map combine]. now rewrite IH. Qed.
Lemma starts_num (xs a : list pyv) : length xs = length a -> Forall mark_with_start (map (fun p => PList [fst p; PList [snd p]]) (combine xs a)) -> Forall is_num xs.
Proof.
  revert a. induction xs as [|x xs IH]; intros [|y a] L F; try discriminate; constructor; inversion F as [|? ? (x' & a' & E & Nx & _) F']; subst.
  - injection E as -> _. exact Nx.
  - eapply IH; [|exact F']. now injection L.
Qed.
Lemma starts_g (x a : list number) : floats x -> floats a ->
  map (fun p => PList [pv (fst p); nums_pv [snd p]]) (combine (map (data_num g) x) (map (data_num g) a)) =
  map (map_nums g) (map (fun p => PList [pv (fst p); nums_pv [snd p]]) (combine x a)).
Proof.
  intros F1. revert a. induction F1 as [|u x [w ->] _ IH]; intros [|v a] F2; try reflexivity. inversion F2 as [|? ? [y ->] F2']; subst.
  cbn [map combine]. rewrite IH by assumption. reflexivity.
Qed.
Lemma record2310 content ignore d : read_file content ignore = Ok (C2310, d) -> tidy g C2310 d -> exists r,
  ok2310 g r /\ floats2310 r /\ has d (items2310 r) /\ exactly d (items2310 r) /\ items2310 (norm2310 g r) = map rw (items2310 r).
Proof.
  intros Hr Ht.
  destruct (file_parts C2310 content ignore d Hr Ht) as (h & line & Eo & Ed & S & C & Hh & Df & Dn & Hn).
  destruct (common_record C2310 ignore d Ht h line Hh S C Df Dn) as (rc & O1 & F1 & H1).
  destruct (vars_record C2310 ignore d Ht h line Hh S C) as (vs & O2 & F2 & H2).
  destruct (dx_record C2310 content ignore d Hr Ht h Eo Hn) as (dx & D3 & F3 & L3).
  destruct (xname_record C2310 content ignore d Hr Ht h line Hh S C Hn) as (xn & D4 & N4 & L4).
  destruct (C25_own_sizes h C2310 content d ltac:(cbn; tauto) Ed) as (nv & na & nx & xs & V & A & Ev & Ena & Enx & Ex & Fx & EV & LV & FV & EA & [LA FA] & HI).
  destruct (ti_steps g C2310 d Ht eq_refl) as (T1 & T2 & T3). assert (Dna : d kNAUXV = Some (PInt na)) by (apply attr_some_int; [reflexivity|exact Ena]). specialize (T2 _ Dna).
  assert (nv = 1%Z). { apply attr_some_int in Ev; [|reflexivity]. congruence. } subst nv.
  destruct (read_steps h content d na 1 _ Ed Ena T2 Ev D3) as (a0 & a1 & a2 & ar & x & ds & zs & RA & Lx & RX & RD & Fs & RN & Pz).
  assert (HA : columns na (length nx) (attr d kA)) by (exists A; auto).
  destruct (aux_of C2310 content ignore d h line na _ Hr Ht ltac:(discriminate) ltac:(discriminate) Eo Hh S C Dna HA) as (au & a & O5 & F5 & H5 & D5 & Fa & La & L5 & Ab).
  change (Z.of_nat (length dx) = Z.of_nat 1) in L3. apply Nat2Z.inj in L3. change (Z.of_nat (length xn) = Z.of_nat 2) in L4. apply Nat2Z.inj in L4.
  destruct dx as [|dx0 [|]]; try discriminate L3. destruct xn as [|xn0 [|xn1 [|]]]; try discriminate L4.
  destruct (raggeds_list _ V FV) as (v & -> & Lv & Egv).
  apply attr_some in Ex, EV, Enx, EA; try reflexivity. apply attr_some_int in Ev; [|reflexivity].
  rewrite RN in Enx. injection Enx as Enx. assert (zs = nx) by (clear -Enx; revert nx Enx; induction zs; intros [|z nx] E; try discriminate; [reflexivity|cbn in E; injection E as -> E; f_equal; auto]). subst zs. clear Enx.
  rewrite D5 in RA. injection RA as RA. destruct a as [|n0 [|n1 [|n2 a]]]; try discriminate RA. cbn [map] in RA.
  assert (Ra : a0 = map pv n0 /\ a1 = map pv n1 /\ a2 = map pv n2) by (unfold nums_pv in RA; injection RA; auto). destruct Ra as (-> & -> & ->). clear RA.
  rewrite RX in Ex. injection Ex as <-.
  assert (Nx : Forall is_num x). { eapply starts_num; [exact Lx|]. clear -Fx. induction Fx; constructor; auto. }
  destruct (float_list x Nx) as (x' & -> & Fx'). rewrite combine_pv in RX.
  inversion N4 as [|? ? Nx0 N4']; subst. inversion N4' as [|? ? Nx1 _]; subst. inversion F3 as [|? ? Fd0 _]; subst.
  assert (RD' : d kDX = Some (nums_pv (dx0 :: map NI ds))) by (rewrite RD; unfold nums_pv; cbn [map app]; rewrite map_map; reflexivity).
  assert (Lvs : length vs = 1%nat) by (rewrite <- (has_count d vs 1 H2 Ev); reflexivity). destruct vs as [|v1 [|]]; try discriminate Lvs.
  change (length (map (fun x => PList (map nums_pv x)) v) = 1%nat) in LV. rewrite map_length in LV. destruct v as [|v0 [|]]; try discriminate LV.
  exists (mk2310 rc v1 au (dx0 :: map NI ds) (xn0, xn1) x' (map Z.to_nat nx) (n0 :: n1 :: n2 :: a) v0). 
  rewrite D5 in EA. injection EA as <-. specialize (HI _ _ eq_refl). pose proof (Forall_inv La) as Ln0. pose proof (Forall_inv (Forall_inv_tail La)) as Ln1.
  rewrite !map_length in Lx.
  assert (Tr : forall ns (P : list number -> Prop), floats ns -> (forall y, In (PNum y) (map pv ns) -> forall n, num_trunc y = Some n -> num_trunc (g y) = Some n) ->
    forall ks, Forall2 (fun u z => int_of u = Ok z) (map pv ns) ks -> Forall2 (fun n z => num_trunc (g (val n)) = Some z) ns ks).
  { clear. intros ns _ F. induction F as [|n ns [y ->] _ IH]; intros T ks E; inversion E as [|? z ? ks' E1 E2]; subst; constructor.
    - cbn in E1. destruct (num_trunc y) as [k|] eqn:Ey; [|discriminate]. injection E1 as <-. exact (T y (or_introl eq_refl) _ Ey).
    - apply IH; [|exact E2]. intros u I. apply T. now right. }
  assert (Q0 : Forall2 (fun n z => num_trunc (g (val n)) = Some z) n0 nx).
  { apply (Tr _ (fun _ => True)); [exact (Forall_inv Fa)| |exact HI]. intros y I n. apply (T3 (map pv n0) (nums_pv n1) (map pv n2) (map nums_pv a)); [exact D5|now left]. }
  assert (Q2 : Forall2 (fun n z => num_trunc (g (val n)) = Some z) n2 ds).
  { apply (Tr _ (fun _ => True)); [exact (Forall_inv (Forall_inv_tail (Forall_inv_tail Fa)))| |exact Fs]. intros y I n. apply (T3 (map pv n0) (nums_pv n1) (map pv n2) (map nums_pv a)); [exact D5|now right]. }
  assert (Pos : Forall (fun z => 0 < z)%Z nx) by (eapply Forall_impl; [|exact Pz]; cbv beta; intros; lia).
  split; [|split; [|split; [|split]]].
  - unfold ok2310. cbn [r7_common r7_var r7_aux r7_dx r7_xname r7_v r7_x r7_nx r7_a fst snd nth tl]. split; [assumption|].
    split; [exact (Forall_inv (proj2 O2))|]. split; [assumption|]. split; [rewrite <- L5; cbn; lia|]. repeat (split; [assumption|]).
    rewrite map_length. split; [congruence|]. split; [eapply Forall_impl; [|exact La]; cbv beta; intros; congruence|].
    split; [rewrite Forall_map; eapply Forall_impl; [|exact Pos]; cbv beta; intros; lia|].
    split.
    { clear -Q0 Pos. induction Q0; inversion Pos; subst; constructor; auto. rewrite Z2Nat.id by lia. assumption. }
    split.
    { pose proof (Forall_inv Lv) as K. cbv beta in K. rewrite <- K. clear. induction v0; constructor; auto. }
    split; [discriminate|]. clear -Q2. induction Q2; constructor; eauto.
  - unfold floats2310. cbn. split; [assumption|]. split; [exact Fd0|]. auto.
  - unfold items2310. cbn [r7_common r7_var r7_aux r7_dx r7_xname r7_v r7_x r7_nx r7_a fst snd nth]. 
    replace (map (fun n => PInt (Z.of_nat n)) (map Z.to_nat nx)) with (map (PInt (num:=num)) nx)
      by (rewrite map_map; clear -Pos; induction Pos; cbn [map]; f_equal; auto; now rewrite Z2Nat.id by lia).
    has_all.
  - unfold exactly, items2310. cbn [r7_common r7_var r7_aux r7_dx r7_xname r7_v r7_x r7_nx r7_a fst snd nth]. aux_cases au Ab.
  - unfold items2310, norm2310. cbn [r7_common r7_var r7_aux r7_dx r7_xname r7_v r7_x r7_nx r7_a fst snd nth].
    rewrite norm_common_read, !norm_vars_read, !head_float by assumption.
    change [norm_var v1] with (map norm_var [v1]). rewrite norm_vars_read, numss_g by assumption.
    change (nth 1 (map (map (data_num g)) (n0 :: n1 :: n2 :: a)) []) with (map (data_num g) n1). rewrite starts_g; [|assumption|exact (Forall_inv (Forall_inv_tail Fa))].
    rewrite !map_app, rw_aux. cbn [map] in Egv |- *. unfold rw. cbn [fst snd rewritten]. 
    repeat f_equal. exact (f_equal PList Egv).
Qed.
End Rewrite.
