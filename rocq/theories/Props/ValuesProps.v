(** C75 and C76: the values of the variables are in the converted dictionaries. *)
From Coq Require Import List NArith ZArith Bool Lia.
From Verif Require Import Py.Str Py.Res Py.Num Py.Arith Model.Dict Model.Xarray Model.Collector Spec.ValuesSpec Spec.CollectorSpec Spec.ZNum
  Proofs.StrLemmas Proofs.ReadFrame Proofs.ReadData Proofs.CollectorLemmas Proofs.CollectorFrame Props.CollectorProps.
Import ListNotations.

Section Values.
Context {num : Type} {Num : NumOps num} {Ar : ArithOps num}.
Variable E : env num.
Local Notation xvar := (xvar num).
Local Notation pyv := (pyv num).
Local Notation na := (na num).

Lemma attr_upd_same (d : na) k v : attr (upd d k v) k = v.
Proof. unfold attr. now rewrite upd_same. Qed.
Lemma attr_upd_other (d : na) k v k' : k <> k' -> attr (upd d k v) k' = attr d k'.
Proof. intros N. unfold attr. now rewrite upd_other. Qed.
Lemma fillna_marked (m : pyv) : forall v, marked m v (fillna m v).
Proof.
  fix IH 1. intros [| z | x | s | l]; cbn [fillna].
  - constructor. exact I.
  - constructor. exact I.
  - destruct (num_isnan x) eqn:N; constructor; exact N.
  - constructor. exact I.
  - constructor. induction l as [| v l IHl]; cbn [map]; constructor; [apply IH | exact IHl].
Qed.
Lemma missing_spec fill (v : xvar) m : getMissingValue fill v = Ok m -> missing_of fill v m.
Proof.
  unfold getMissingValue, missing_of. destruct (v_miss v) as [[| z | x | s | l] |]; intros R; try (injection R as <-; reflexivity).
  destruct l; cbn in *; congruence.
Qed.
Lemma var_entry kn km ks kv v (d d' : na) ln lm ls lv : NoDup [kn; km; ks; kv] -> defineVar E kn km ks kv v d = Ok d' ->
  attr d kn = PList ln -> attr d km = PList lm -> attr d ks = PList ls -> attr d kv = PList lv ->
  exists e, entry_for (e_fill E) v e /\
    attr d' kn = PList (ln ++ names [e]) /\ attr d' km = PList (lm ++ misses [e]) /\ attr d' ks = PList (ls ++ scales [e]) /\ attr d' kv = PList (lv ++ arrays [e]).
Proof.
  intros Nd R An Am As Av. unfold defineVar in R. bindE R n Hn. bindE R d1 H1. bindE R m Hm. bindE R d2 H2. bindE R d3 H3. bindE R vals Hv.
  inversion Nd as [| ? ? N1 Nd1]; subst. inversion Nd1 as [| ? ? N2 Nd2]; subst. inversion Nd2 as [| ? ? N3 Nd3]; subst. cbn [In] in *.
  destruct (push_inv _ _ _ _ H1) as (l1 & E1 & ->). rewrite An in E1. injection E1 as <-.
  destruct (push_inv _ _ _ _ H2) as (l2 & E2 & ->). rewrite attr_upd_other in E2 by intuition congruence. rewrite Am in E2. injection E2 as <-.
  destruct (push_inv _ _ _ _ H3) as (l3 & E3 & ->). rewrite !attr_upd_other in E3 by intuition congruence. rewrite As in E3. injection E3 as <-.
  destruct (push_inv _ _ _ _ R) as (l4 & E4 & ->). rewrite !attr_upd_other in E4 by intuition congruence. rewrite Av in E4. injection E4 as <-.
  exists (PStr n, m, PInt 1, vals). split.
  - cbn [entry_for]. split; [eauto |]. split; [exact (missing_spec _ _ _ Hm) |]. split; [reflexivity |].
    unfold getArrayAsList in Hv. destruct (v_time v) as [t|]; [injection Hv as <-; reflexivity|].
    destruct (size_of v =? 0)%nat; [discriminate Hv|]. injection Hv as <-. apply fillna_marked.
  - cbn [names misses scales arrays map fst snd].
    repeat split; repeat first [rewrite attr_upd_same | rewrite attr_upd_other by intuition congruence]; reflexivity.
Qed.
Lemma var_entries kn km ks kv : NoDup [kn; km; ks; kv] -> forall vs (d d' : na) ln lm ls lv, forR vs (defineVar E kn km ks kv) d = Ok d' ->
  attr d kn = PList ln -> attr d km = PList lm -> attr d ks = PList ls -> attr d kv = PList lv ->
  exists es, Forall2 (entry_for (e_fill E)) vs es /\
    attr d' kn = PList (ln ++ names es) /\ attr d' km = PList (lm ++ misses es) /\ attr d' ks = PList (ls ++ scales es) /\ attr d' kv = PList (lv ++ arrays es).
Proof.
  intros Nd. induction vs as [| v vs IH]; intros d d' ln lm ls lv R An Am As Av; cbn [forR] in R.
  - injection R as <-. exists []. cbn. rewrite !app_nil_r. auto.
  - bindE R d1 H1. destruct (var_entry _ _ _ _ _ _ _ _ _ _ _ Nd H1 An Am As Av) as (e & He & An1 & Am1 & As1 & Av1).
    destruct (IH _ _ _ _ _ _ R An1 Am1 As1 Av1) as (es & Hs & An2 & Am2 & As2 & Av2). exists (e :: es). split; [constructor; assumption |].
    rewrite <- !app_assoc in *. auto.
Qed.
Lemma decide_ffi req nd na lim f : decideFileFormatIndex req nd na lim = Ok f ->
  if truthy req then Some f = req else f <> 2110%Z /\ f <> 2310%Z.
Proof.
  unfold decideFileFormatIndex. destruct (truthy req) eqn:T.
  - destruct req as [z |]; [| discriminate T]. destruct lim as [l |].
    + destruct (existsb (Z.eqb z) l); [| discriminate]. congruence.
    + intros R. bindE R g Hg. cbn [andb] in R. destruct (g =? z)%Z eqn:Q; cbn [negb] in R; [| discriminate R].
      apply Z.eqb_eq in Q. congruence.
  - intros R. bindE R g Hg. cbn [andb] in R. injection R as <-.
    assert (Z0 : match req with Some z => z | None => 0%Z end = 0%Z).
    { destruct req as [z |]; [| reflexivity]. cbn in T. apply negb_false_iff, Z.eqb_eq in T. exact T. }
    rewrite Z0 in Hg. cbn [existsb Z.eqb orb] in Hg.
    destruct (4 <? nd)%nat eqn:Q4; [discriminate Hg |]. apply Nat.ltb_ge in Q4.
    destruct (2 <? nd)%nat eqn:Q2; [apply Nat.ltb_lt in Q2; assert (Hh : (10 + Z.of_nat nd * 1000)%Z = g) by congruence; lia |].
    destruct (nd =? 2)%nat; [injection Hg as <-; lia |]. destruct (0 <? na)%nat; injection Hg as <-; lia.
Qed.
Lemma analyse_ffi req vars a : analyseVariables E req vars = Ok (Some a) ->
  if truthy req then Some (a_ffi a) = req else a_ffi a <> 2110%Z /\ a_ffi a <> 2310%Z.
Proof.
  unfold analyseVariables. destruct (find_best 0 vars None) as [[i best] |]; [| discriminate].
  cbv zeta. intros R. bindE R lim H1. bindE R s H2. bindE R m H3. bindE R x H4. bindE R f H5. injection R as <-. cbn [a_ffi].
  exact (decide_ffi _ _ _ _ _ H5).
Qed.
Lemma described_ffi req vars a : analyseVariables E req vars = Ok (Some a) ->
  described req = if (a_ffi a =? 2110)%Z then 1%nat else if (a_ffi a =? 2310)%Z then 3%nat else 0%nat.
Proof.
  intros R. assert (K := analyse_ffi _ _ _ R). destruct (truthy req) eqn:T.
  - rewrite <- K. cbn [described]. destruct (a_ffi a =? 2110)%Z eqn:Q1; [apply Z.eqb_eq in Q1; rewrite Q1; reflexivity |].
    destruct (a_ffi a =? 2310)%Z eqn:Q2; [apply Z.eqb_eq in Q2; rewrite Q2; reflexivity |].
    apply Z.eqb_neq in Q1, Q2. clear - Q1 Q2. destruct (a_ffi a); [reflexivity | | reflexivity].
    repeat (match goal with p : positive |- _ => destruct p end; try reflexivity; try congruence).
  - destruct K as [K1 K2]. apply Z.eqb_neq in K1, K2. rewrite K1, K2. destruct req as [z |]; [| reflexivity].
    cbn in T. apply negb_false_iff, Z.eqb_eq in T. now rewrite T.
Qed.
(** the entries that describe the second axis *)
Lemma axes_aux ffi nvpm v (d d' : na) : defineAxes E ffi nvpm v d = Ok d' ->
  if existsb (Z.eqb ffi) [2110; 2310]%Z then
    exists ln lm ls lv, attr d' kANAME = PList ln /\ attr d' kAMISS = PList lm /\ attr d' kASCAL = PList ls /\ attr d' kA = PList lv /\
      (length ln = length lv /\ length lm = length lv /\ length ls = length lv /\ length lv = if (ffi =? 2110)%Z then 1 else 3)%nat
  else same_except axis_keys d d'.
Proof.
  unfold defineAxes. intros R. cbv zeta in R. bindE R ax0 H1. bindE R n H2. bindE R dx0 H3. bindE R d1 H4. bindE R d2 H5.
  destruct (existsb (Z.eqb ffi) [2110; 2310]%Z).
  - bindE R ax1 H6. destruct (ffi =? 2110)%Z.
    + injection R as <-. do 4 eexists. repeat split; repeat first [rewrite attr_upd_same | rewrite attr_upd_other by discriminate]; reflexivity.
    + bindE R incr H7. bindE R x0 H8. injection R as <-. do 4 eexists.
      repeat split; repeat first [rewrite attr_upd_same | rewrite attr_upd_other by discriminate]; reflexivity.
  - injection R as <-. refine (same_trans _ _ _ _ _ (same_forR _ _ _ same_append _ _ H5)).
    destruct (ffi =? 1020)%Z.
    + bindE H4 m Hm. destruct (m =? 0)%nat; [discriminate H4 |]. injection H4 as <-. repeat (apply same_upd; [| cbn; tauto]); apply same_refl.
    + destruct (existsb (Z.eqb ffi) [1001; 1010]%Z); injection H4 as <-; repeat (apply same_upd; [| cbn; tauto]); apply same_refl.
Qed.
Lemma attr_same ks (d d' : na) k : same_except ks d d' -> ~ In k ks -> attr d' k = attr d k.
Proof. intros S N. unfold attr. now rewrite (S k N). Qed.

Lemma main_values ffi nvpm vs (d d' : na) : defineNAVars E ffi nvpm vs d = Ok d' ->
  attr d' kNV = PInt (Z.of_nat (length vs)) /\ exists es, Forall2 (entry_for (e_fill E)) vs es /\
    attr d' kVNAME = PList (names es) /\ attr d' kVMISS = PList (misses es) /\ attr d' kVSCAL = PList (scales es) /\ attr d' kV = PList (arrays es).
Proof.
  unfold defineNAVars. intros R. cbv zeta in R. cbn [fold_left] in R. bindE R d1 H1.
  assert (S : same_except (axis_keys ++ [kA; kANAME; kAMISS; kASCAL]) d1 d').
  { destruct vs as [| v t]; [injection R as <-; apply same_refl | exact (same_axes E _ _ _ _ _ R)]. }
  assert (Nd : NoDup [kVNAME; kVMISS; kVSCAL; kV]). { repeat constructor; cbn; intuition discriminate. }
  destruct (var_entries _ _ _ _ Nd _ _ _ [] [] [] [] H1) as (es & F & An & Am & As & Av);
    try (repeat first [rewrite attr_upd_same; reflexivity | rewrite attr_upd_other by discriminate]).
  split.
  - rewrite (attr_same _ _ _ _ S) by (cbn; intuition discriminate).
    assert (S1 := same_forR _ _ _ (same_var E kVNAME kVMISS kVSCAL kV) _ _ H1).
    rewrite (attr_same _ _ _ _ S1) by (cbn; intuition discriminate).
    repeat first [rewrite attr_upd_same; reflexivity | rewrite attr_upd_other by discriminate].
  - exists es. split; [exact F |]. rewrite !(attr_same _ _ _ _ S) by (cbn; intuition discriminate). auto.
Qed.
Definition no_aux (d : na) : Prop := d kANAME = None /\ d kAMISS = None /\ d kASCAL = None /\ d kA = None.
Lemma aux_values ffi nvpm vs aux (d d1 d' : na) : no_aux d -> vs <> [] -> defineNAVars E ffi nvpm vs d = Ok d1 -> defineNAAuxVars E aux d1 = Ok d' ->
  exists es ln lm ls lv, Forall2 (entry_for (e_fill E)) aux es /\ attr d' kANAME = PList (ln ++ names es) /\ attr d' kAMISS = PList (lm ++ misses es) /\
    attr d' kASCAL = PList (ls ++ scales es) /\ attr d' kA = PList (lv ++ arrays es) /\
    (length ln = length lv /\ length lm = length lv /\ length ls = length lv /\
    length lv = if (ffi =? 2110)%Z then 1 else if (ffi =? 2310)%Z then 3 else 0)%nat /\
    attr d' kNAUXV = PInt (Z.of_nat (length lv + length aux)).
Proof.
  intros (N1 & N2 & N3 & N4) Nv R1 R2.
  assert (K : exists ln lm ls lv (d2 : na), forR aux (defineVar E kANAME kAMISS kASCAL kA) d2 = forR aux (defineVar E kANAME kAMISS kASCAL kA)
        (fold_left (fun d k => match d k with None => upd d k (PList []) | Some _ => d end) [kANAME; kAMISS; kASCAL; kA] d1) /\ attr d2 kANAME = PList ln /\ attr d2 kAMISS = PList lm /\ attr d2 kASCAL = PList ls /\ attr d2 kA = PList lv /\
    (length ln = length lv /\ length lm = length lv /\ length ls = length lv /\
    length lv = if (ffi =? 2110)%Z then 1 else if (ffi =? 2310)%Z then 3 else 0)%nat).
  { unfold defineNAVars in R1. cbv zeta in R1. cbn [fold_left] in R1. bindE R1 d0 H1. destruct vs as [| v t]; [congruence |].
    assert (S1 := same_forR _ _ _ (same_var E kVNAME kVMISS kVSCAL kV) _ _ H1).
    assert (A := axes_aux _ _ _ _ _ R1). destruct (existsb (Z.eqb ffi) [2110; 2310]%Z) eqn:Q.
    - destruct A as (ln & lm & ls & lv & An & Am & As & Av & L1 & L2 & L3 & L4).
      assert (G : forall k, (match attr d1 k with PList _ => True | _ => False end) -> k <> kIGN -> d1 k = Some (attr d1 k)).
      { intros k. unfold attr. destruct (d1 k); [reflexivity |]. destruct k; cbn; intros; try contradiction; congruence. }
      exists ln, lm, ls, lv, d1. split.
      { cbn [fold_left]. rewrite (G kANAME) by first [rewrite An; exact I | discriminate]. rewrite (G kAMISS) by first [rewrite Am; exact I | discriminate].
        rewrite (G kASCAL) by first [rewrite As; exact I | discriminate]. rewrite (G kA) by first [rewrite Av; exact I | discriminate]. reflexivity. }
      repeat (split; [assumption |]). rewrite L4. cbn [existsb] in Q. destruct (ffi =? 2110)%Z; [reflexivity |]. cbn in Q. rewrite orb_false_r in Q. now rewrite Q.
    - cbn [existsb] in Q. rewrite orb_false_r in Q. apply orb_false_iff in Q as [Q1 Q2]. rewrite Q1, Q2.
      assert (G : forall k, In k [kANAME; kAMISS; kASCAL; kA] -> d1 k = None).
      { intros k I. rewrite (A k) by (cbn in I |- *; intros J; destruct I as [<- | [<- | [<- | [<- | []]]]]; intuition discriminate).
        rewrite (S1 k) by (cbn in I |- *; intros J; destruct I as [<- | [<- | [<- | [<- | []]]]]; intuition discriminate).
        cbn in I. destruct I as [<- | [<- | [<- | [<- | []]]]]; rewrite !upd_other by discriminate; assumption. }
      exists [], [], [], [], (upd (upd (upd (upd d1 kANAME (PList [])) kAMISS (PList [])) kASCAL (PList [])) kA (PList [])). split.
      { cbn [fold_left]. rewrite (G kANAME) by (cbn; tauto). rewrite !upd_other by discriminate. rewrite (G kAMISS) by (cbn; tauto).
        rewrite !upd_other by discriminate. rewrite (G kASCAL) by (cbn; tauto). rewrite !upd_other by discriminate. rewrite (G kA) by (cbn; tauto). reflexivity. }
      repeat split; repeat first [rewrite attr_upd_same; reflexivity | rewrite attr_upd_other by discriminate]; reflexivity. }
  destruct K as (ln & lm & ls & lv & d2 & Ed & An & Am & As & Av & L1 & L2 & L3 & L4).
  unfold defineNAAuxVars in R2. cbv zeta in R2. rewrite <- Ed in R2. bindE R2 d3 H3. bindE R2 al Hal. injection R2 as <-.
  assert (Nd : NoDup [kANAME; kAMISS; kASCAL; kA]). { repeat constructor; cbn; intuition discriminate. }
  destruct (var_entries _ _ _ _ Nd _ _ _ _ _ _ _ H3 An Am As Av) as (es & F & An3 & Am3 & As3 & Av3).
  exists es, ln, lm, ls, lv. split; [exact F |]. rewrite !attr_upd_other by discriminate. repeat (split; [assumption |]).
  split; [repeat split; assumption |]. rewrite attr_upd_same. rewrite Av3 in Hal. injection Hal as <-. rewrite app_length. unfold arrays. rewrite map_length.
  rewrite (Forall2_len _ _ _ F). reflexivity.
Qed.
End Values.

(** ** C75 *)
(** Each dictionary has one entry in VNAME, VMISS, VSCAL and V for each of its
    main variables, in order, and nothing else; after the entries that describe
    the second axis in the formats 2110 and 2310 the same holds for the
    auxiliary variables.  The arrays are those of the variables with the missing
    value in place of NaN. *)
Theorem C75_values : forall num (Num : NumOps num) (Ar : ArithOps num) (E : env num) req globals (vars : list (xvar num)) cs c,
  convert E req globals vars = Ok (Some cs) -> In c cs ->
  exists d es, c_na c = Some d /\ Forall2 (entry_for (e_fill E)) (c_main c) es /\
    attr d kNV = PInt (Z.of_nat (length (c_main c))) /\ attr d kVNAME = PList (names es) /\ attr d kVMISS = PList (misses es) /\
    attr d kVSCAL = PList (scales es) /\ attr d kV = PList (arrays es).
Proof.
  intros num Num Ar E req globals xr cs c R I.
  destruct (convert_each E _ _ _ _ _ R I) as (vs & C & Nc & In1). destruct (c_na c) as [d |] eqn:Nd; [| congruence].
  destruct (collect_steps E _ _ _ _ _ C Nd) as (a & d1 & d2 & g & d3 & v0 & ax0 & Ha & H1 & H2 & Hg & H3 & _ & _ & -> & Em & _).
  destruct (main_values E _ _ _ _ _ H1) as (An & es & F & Avn & Avm & Avs & Av). exists (defineGeneralHeader E ax0 d3), es. split; [reflexivity |].
  rewrite Em. split; [exact F |].
  assert (Fr : forall k, ~ In k (aux_keys ++ global_keys ++ [kNCOM; kNNCOML; kSCOM; kNSCOML] ++ [kRDATE; kDATE; kIVOL; kNVOL]) -> attr (defineGeneralHeader E ax0 d3) k = attr d1 k).
  { intros k Nk. rewrite !in_app_iff in Nk. unfold attr.
    rewrite (same_header E ax0 d3 k) by tauto. rewrite (comments_frame _ _ _ _ H3 k) by tauto.
    rewrite (same_globals E _ _ _ Hg k) by tauto. rewrite (same_aux E _ _ _ H2 k) by tauto. reflexivity. }
  rewrite !Fr by (cbn; intuition discriminate). auto.
Qed.
Theorem C75_auxiliary : forall num (Num : NumOps num) (Ar : ArithOps num) (E : env num) req globals (vars : list (xvar num)) cs c,
  convert E req globals vars = Ok (Some cs) -> In c cs ->
  exists d es ln lm ls lv, c_na c = Some d /\ Forall2 (entry_for (e_fill E)) (c_aux c) es /\
    attr d kANAME = PList (ln ++ names es) /\ attr d kAMISS = PList (lm ++ misses es) /\
    attr d kASCAL = PList (ls ++ scales es) /\ attr d kA = PList (lv ++ arrays es) /\
    length ln = described req /\ length lm = described req /\ length ls = described req /\ length lv = described req /\
    attr d kNAUXV = PInt (Z.of_nat (described req + length (c_aux c))).
Proof.
  intros num Num Ar E req globals xr cs c R I.
  destruct (convert_each E _ _ _ _ _ R I) as (vs & C & Nc & In1). destruct (c_na c) as [d |] eqn:Nd; [| congruence].
  destruct (collect_steps E _ _ _ _ _ C Nd) as (a & d1 & d2 & g & d3 & v0 & ax0 & Ha & H1 & H2 & Hg & H3 & Hv & _ & -> & Em & Ea).
  assert (Nv : a_main a <> []). { intros Q. rewrite Q in Hv. discriminate Hv. }
  assert (Na : no_aux (upd (upd (match a_nvpm a with Some n => upd (upd na_empty kNIV (PInt (Z.of_nat (a_niv a)))) kNVPM (PInt (Z.of_nat n)) | None => upd na_empty kNIV (PInt (Z.of_nat (a_niv a))) end) kFFI (PInt (a_ffi a))) kNLHEAD (PInt (-999)) : na num)).
  { destruct (a_nvpm a); repeat split; repeat rewrite upd_other by discriminate; reflexivity. }
  destruct (aux_values E _ _ _ _ _ _ _ Na Nv H1 H2) as (es & ln & lm & ls & lv & F & An & Am & As & Av & (L1 & L2 & L3 & L4) & Nx).
  rewrite <- (described_ffi E _ _ _ Ha) in L4. exists (defineGeneralHeader E ax0 d3), es, ln, lm, ls, lv. split; [reflexivity |].
  rewrite Ea. split; [exact F |].
  assert (Fr : forall k, ~ In k (global_keys ++ [kNCOM; kNNCOML; kSCOM; kNSCOML] ++ [kRDATE; kDATE; kIVOL; kNVOL]) -> attr (defineGeneralHeader E ax0 d3) k = attr d2 k).
  { intros k Nk. rewrite !in_app_iff in Nk. unfold attr.
    rewrite (same_header E ax0 d3 k) by tauto. rewrite (comments_frame _ _ _ _ H3 k) by tauto.
    rewrite (same_globals E _ _ _ Hg k) by tauto. reflexivity. }
  rewrite !Fr by (cbn; intuition discriminate). rewrite An, Am, As, Av, Nx, L1, L2, L3, L4. repeat split; reflexivity.
Qed.
Print Assumptions C75_values. Print Assumptions C75_auxiliary.

(** *** Concrete variables *)
From Verif Require Import Spec.Binary64 Props.AxisProps.
Definition nan : b64 := match num_parse (lit "nan") with Some x => x | None => bf "0" end.
Definition bdata (l : list b64) : pyv b64 := PList (map PNum l).
Definition bvar (n : str) (axes : list (axis b64)) (d : pyv b64) (miss : option (pyv b64)) : xvar b64 := mkVar (mkNamed n [] []) axes d miss None.
Definition bt : axis b64 := axb (lit "t") [bf "10"; bf "20"].
Definition bx : axis b64 := axb (lit "x") [bf "1"; bf "2"; bf "4"].
Definition bvars : list (xvar b64) :=
  [bvar (lit "p") [bt; bx] (PList [bdata [bf "1"; nan; bf "3"]; bdata [bf "4"; bf "5"; nan]]) (Some (PNum (bf "-99")));
   bvar (lit "q") [bt] (bdata [nan; bf "0.5"]) None;
   bvar (lit "r") [bt; bx] (PList [bdata [bf "7"; bf "7"; bf "7"]; bdata [bf "8"; bf "8"; nan]]) None].
Definition arrays_of (r : Res (option (list (collected b64)))) : list (list (pyv b64)) :=
  match r with
  | Ok (Some cs) => map (fun c => match c_na c with Some d => map (attr d) [kVNAME; kVMISS; kV; kANAME; kA; kNAUXV] | None => [] end) cs
  | _ => []
  end.
(** Two main variables with an auxiliary variable, all with missing values. *)
Example C75_example : arrays_of (convert env_b None [] bvars) =
  [[PList [PStr (lit "p"); PStr (lit "r")]; bdata [bf "-99"; bf "-9999999999"];
    PList [PList [bdata [bf "1"; bf "-99"; bf "3"]; bdata [bf "4"; bf "5"; bf "-99"]];
           PList [bdata [bf "7"; bf "7"; bf "7"]; bdata [bf "8"; bf "8"; bf "-9999999999"]]];
    PList [PStr (lit "q")]; PList [bdata [bf "-9999999999"; bf "0.5"]]; PInt 1]].
Proof. vm_compute. reflexivity. Qed.
Example C75_2310_example : map (fun l => nth 5 l PNone) (arrays_of (convert env_b (Some 2110%Z) [] bvars)) = [PInt 2].
Proof. vm_compute. reflexivity. Qed.

(** ** C76 *)
Section Cells.
Context {num : Type} {Num : NumOps num} {Ar : ArithOps num}.
Lemma marked_cell (m : pyv num) : forall p v w x, marked m v w -> cell v p = Some (PNum x) ->
  cell w p = Some (if num_isnan x then m else PNum x).
Proof.
  induction p as [| i p IH]; intros v w x M C; cbn [cell] in C |- *.
  - injection C as ->. inversion M as [y N | y N | | v' B]; subst; [rewrite N; reflexivity | rewrite N; reflexivity | destruct B].
  - destruct v as [| | | | l]; try discriminate C. inversion M as [| | l0 l' F | v' B]; subst; [| destruct B].
    destruct (nth_error l i) as [v |] eqn:Ei; [| discriminate C].
    assert (G : exists w, nth_error l' i = Some w /\ marked m v w).
    { clear - F Ei. revert i Ei. induction F as [| a b la lb M F IH]; intros [| i] Ei; try discriminate Ei; cbn in Ei |- *; [| exact (IH i Ei)].
      injection Ei as <-. eauto. }
    destruct G as (w & -> & Mw). exact (IH _ _ _ Mw C).
Qed.
Lemma Forall2_nth {A B} (R : A -> B -> Prop) l l' i x : Forall2 R l l' -> nth_error l i = Some x -> exists y, nth_error l' i = Some y /\ R x y.
Proof.
  intros F. revert i. induction F as [| a b la lb M F IH]; intros [| i] Ei; try discriminate Ei; cbn in Ei |- *; [| exact (IH i Ei)].
  injection Ei as <-. eauto.
Qed.
End Cells.
(** Where the missing value is a number (not NaN) that does not occur among the
    values of the variable, the cells with the missing value are exactly the
    missing cells, and no cell is NaN.

    Missing for the whole claim: other missing values, see below. *)
Theorem C76_partial : forall num (Num : NumOps num) (Ar : ArithOps num) (E : env num) req globals (vars : list (xvar num)) cs c d i v m,
  convert E req globals vars = Ok (Some cs) -> In c cs -> c_na c = Some d -> nth_error (c_main c) i = Some v -> v_time v = None ->
  index (attr d kVMISS) i = Ok m -> not_nan m -> (forall p x, cell (v_data v) p = Some (PNum x) -> num_isnan x = false -> PNum x <> m) ->
  exists w, index (attr d kV) i = Ok w /\
    forall p x, cell (v_data v) p = Some (PNum x) ->
    exists y, cell w p = Some y /\ not_nan y /\ (y = m <-> num_isnan x = true) /\ (num_isnan x = false -> y = PNum x).
Proof.
  intros num Num Ar E req globals vars cs c d i v m R I Nd Iv Tv Hm Nm Df.
  destruct (C75_values _ _ _ E _ _ _ _ _ R I) as (d' & es & Nd' & F & _ & _ & Am & _ & Av). rewrite Nd in Nd'. injection Nd' as <-.
  destruct (Forall2_nth _ _ _ _ _ F Iv) as ([[[n m'] s] w] & Ie & (_ & _ & _ & M)). rewrite Tv in M.
  rewrite Am in Hm. unfold index, nth_res in Hm. cbn [as_list bindR] in Hm. unfold misses in Hm. rewrite nth_error_map, Ie in Hm. cbn in Hm. injection Hm as <-.
  exists w. split. { rewrite Av. unfold index, nth_res. cbn [as_list bindR]. unfold arrays. rewrite nth_error_map, Ie. reflexivity. }
  intros p x C. rewrite (marked_cell _ _ _ _ _ M C). eexists. split; [reflexivity |]. destruct (num_isnan x) eqn:Nx.
  - split; [exact Nm |]. split; [tauto | discriminate].
  - split; [intros z Q; injection Q as <-; exact Nx |]. split; [| auto]. split; [| discriminate]. intros Q. destruct (Df p x C Nx Q).
Qed.
Definition bvars_dict (vars : list (xvar b64)) : na b64 := dict_at (convert env_b None [] vars).
Example C76_example : exists cs c, convert env_b None [] bvars = Ok (Some cs) /\ In c cs /\ nth_error (c_main c) 0 = nth_error bvars 0 /\
  index (attr (bvars_dict bvars) kVMISS) 0 = Ok (PNum (bf "-99")) /\ not_nan (PNum (bf "-99")) /\
  index (attr (bvars_dict bvars) kV) 0 = Ok (PList [bdata [bf "1"; bf "-99"; bf "3"]; bdata [bf "4"; bf "5"; bf "-99"]]) /\
  option_map (fun v => cell (v_data v) [1; 2]%nat) (nth_error bvars 0) = Some (Some (PNum nan)).
Proof.
  set (r := convert env_b None [] bvars).
  assert (K : match r with Ok (Some [c]) => nth_error (c_main c) 0 = nth_error bvars 0 | _ => False end) by (vm_compute; reflexivity).
  destruct r as [[[| c [|]] |] |] eqn:Er; try (destruct K; fail).
  exists [c], c. split; [reflexivity |]. split; [left; reflexivity |]. split; [exact K |].
  split; [vm_compute; reflexivity |]. split; [intros x Q; injection Q as <-; vm_compute; reflexivity |]. split; vm_compute; reflexivity.
Qed.
(** False of the code: xarray itself writes NaN as the fill value of floating
    point variables; the missing cell is then NaN in V and VMISS is NaN. *)
Theorem C76_nan_refuted : exists (vars : list (xvar b64)) cs c d w x,
  convert env_b None [] vars = Ok (Some cs) /\ In c cs /\ c_na c = Some d /\ index (attr d kV) 0 = Ok w /\
  cell w [1%nat] = Some (PNum x) /\ num_isnan x = true /\ index (attr d kVMISS) 0 = Ok (PNum x).
Proof.
  set (vs := [bvar (lit "q") [bt] (bdata [bf "0.5"; nan]) (Some (PNum nan))]).
  set (r := convert env_b None [] vs).
  assert (K : match r with
              | Ok (Some [c]) => match c_na c with Some d => (index (attr d kV) 0, index (attr d kVMISS) 0) = (Ok (bdata [bf "0.5"; nan]), Ok (PNum nan)) | None => False end
              | _ => False
              end) by (vm_compute; reflexivity).
  destruct r as [[[| c [|]] |] |] eqn:Er; try (destruct K; fail). destruct (c_na c) as [d |] eqn:Ed; [| destruct K].
  assert (K1 := f_equal fst K). assert (K2 := f_equal snd K). cbn [fst snd] in K1, K2.
  exists vs, [c], c, d, (bdata [bf "0.5"; nan]), nan. split; [exact Er |]. split; [left; reflexivity |].
  repeat (split; [first [assumption | vm_compute; reflexivity] |]). exact K2.
Qed.
(** False of the code: a variable without fill value that has the default missing
    value as one of its values; the value counts as missing. *)
Theorem C76_value_refuted : exists (vars : list (xvar b64)) cs c d v w m x,
  convert env_b None [] vars = Ok (Some cs) /\ In c cs /\ c_na c = Some d /\ c_main c = [v] /\ index (attr d kV) 0 = Ok w /\
  index (attr d kVMISS) 0 = Ok m /\ cell (v_data v) [0%nat] = Some (PNum x) /\ num_isnan x = false /\ cell w [0%nat] = Some m.
Proof.
  set (vs := [bvar (lit "q") [bt] (bdata [bf "-9999999999"; bf "0.5"]) None]).
  set (r := convert env_b None [] vs).
  assert (K : match r with
              | Ok (Some [c]) => match c_na c with
                                 | Some d => (c_main c, index (attr d kV) 0, index (attr d kVMISS) 0)
                                             = (vs, Ok (bdata [bf "-9999999999"; bf "0.5"]), Ok (PNum (bf "-9999999999")))
                                 | None => False end
              | _ => False
              end) by (vm_compute; reflexivity).
  destruct r as [[[| c [|]] |] |] eqn:Er; try (destruct K; fail). destruct (c_na c) as [d |] eqn:Ed; [| destruct K].
  assert (K1 := f_equal (fun q => fst (fst q)) K). assert (K2 := f_equal (fun q => snd (fst q)) K). assert (K3 := f_equal snd K). cbn [fst snd] in K1, K2, K3.
  exists vs, [c], c, d, (hd (bvar [] [] PNone None) vs), (bdata [bf "-9999999999"; bf "0.5"]), (PNum (bf "-9999999999")), (bf "-9999999999").
  split; [exact Er |]. split; [left; reflexivity |].
  repeat (split; [first [assumption | vm_compute; reflexivity] |]). vm_compute. reflexivity.
Qed.
Print Assumptions C76_partial. Print Assumptions C76_nan_refuted. Print Assumptions C76_value_refuted.

(** ** C77 *)
Section FirstAxis.
Context {num : Type} {Num : NumOps num} {Ar : ArithOps num}.
Variable E : env num.
Local Notation na := (na num).
Lemma spaced_uniform (l : list num) x y : nth_error l 0 = Some x -> nth_error l 1 = Some y ->
  uniform (num_minus y x) l = true <-> evenly_spaced l.
Proof.
  intros X Y. split.
  - intros U a b i p q A B P Q. rewrite X in A. rewrite Y in B. injection A as <-. injection B as <-. exact (uniform_nth _ _ _ _ _ U P Q).
  - intros Sp. unfold uniform. apply forallb_forall. intros [p q] I. cbn [fst snd].
    destruct (In_nth_error _ _ I) as (i & Hi). 
    assert (G : forall (l : list num) i, nth_error (combine l (tl l)) i = Some (p, q) -> nth_error l i = Some p /\ nth_error l (S i) = Some q).
    { clear. intros l. induction l as [| a l IH]; intros i Q; [destruct i; discriminate Q |]. cbn [tl] in Q. destruct l as [| b t]; [destruct i; discriminate Q |].
      destruct i as [| i]; cbn in Q; [injection Q as <- <-; split; reflexivity |]. apply (IH i). exact Q. }
    destruct (G _ _ Hi) as (P & Q). exact (Sp _ _ _ _ _ X Y P Q).
Qed.
Lemma decide_rank req nd na lim f : decideFileFormatIndex req nd na lim = Ok f ->
  lim = None \/ lim = Some [1020%Z] \/ (nd = 2%nat /\ forall l, lim = Some l -> ~ In 1001%Z l) ->
  (f = 1001%Z -> (nd <= 1)%nat) /\ (In f [2110; 2310]%Z -> (nd <= 2)%nat).
Proof.
  unfold decideFileFormatIndex. intros R L.
  assert (Free : (do ffi <- (if (4 <? nd)%nat then Err (ENappy E_Other)
          else if (2 <? nd)%nat then Ok (10 + Z.of_nat nd * 1000)%Z
          else if (nd =? 2)%nat then Ok (if existsb (Z.eqb match req with Some z => z | None => 0%Z end) [2010; 2110; 2310]%Z then match req with Some z => z | None => 0%Z end else 2010%Z)
          else Ok (if (0 <? na)%nat then 1010%Z else 1001%Z));
       if truthy req && negb (ffi =? match req with Some z => z | None => 0%Z end)%Z then Err (ENappy E_RequestedFFI) else Ok ffi)%res = Ok f ->
       (f = 1001%Z -> (nd <= 1)%nat) /\ (In f [2110; 2310]%Z -> (nd <= 2)%nat)).
  { clear R. intros R. bindE R g Hg. destruct (truthy req && negb (g =? match req with Some z => z | None => 0%Z end)%Z); [discriminate R |]. injection R as <-.
    destruct (4 <? nd)%nat; [discriminate Hg |]. destruct (Nat.ltb_spec 2 nd) as [T | T].
    - assert (Hh : (10 + Z.of_nat nd * 1000)%Z = g) by congruence. cbn. lia.
    - destruct (Nat.eqb_spec nd 2) as [D | D].
      + split; [| lia]. intros ->. exfalso. destruct (existsb _ _) eqn:Q; [| discriminate Hg]. injection Hg as Hg. rewrite Hg in Q. discriminate Q.
      + lia. }
  destruct (truthy req); [| exact (Free R)]. destruct lim as [l |]; [| exact (Free R)].
  destruct (existsb (Z.eqb match req with Some z => z | None => 0%Z end) l) eqn:Q; [| discriminate R]. injection R as R. rewrite R in Q. clear R.
  apply existsb_exists in Q as (z & Iz & Qz). apply Z.eqb_eq in Qz. subst z.
  destruct L as [L | [L | (-> & L)]]; [discriminate L | injection L as ->; cbn in Iz |- *; lia |]. split; [| lia]. intros ->. destruct (L l eq_refl Iz).
Qed.
Lemma sort_limited best zero v (s s' : sorting) : sort_var best zero v s = Ok s' -> s_limited s' = s_limited s \/ s_limited s' = Some [1020%Z].
Proof.
  unfold sort_var. intros R. destruct (mem_str (v_name v) zero); [injection R as <-; auto |].
  destruct (negb (nats_eqb (shape v) (shape best))).
  - destruct (v_axes v) as [| a [|]]; [injection R as <-; auto | | injection R as <-; auto].
    bindE R b0 H0. bindE R same H1. destruct (negb same).
    + bindE R nv H2. destruct nv as [[| n] |]; injection R as <-; auto.
    + destruct (only_1020 s); injection R as <-; auto.
  - bindE R same H1. injection R as <-. destruct same; auto.
Qed.
Lemma analyse_rank req vars a : analyseVariables E req vars = Ok (Some a) ->
  (a_ffi a = 1001%Z -> (a_niv a <= 1)%nat) /\ (In (a_ffi a) [2110; 2310]%Z -> (a_niv a <= 2)%nat).
Proof.
  unfold analyseVariables. destruct (find_best 0 vars None) as [[i best] |]; [| discriminate].
  cbv zeta. intros R. bindE R lim H1. bindE R s H2. bindE R m H3. bindE R x H4. bindE R f H5. injection R as <-. cbn [a_ffi a_niv].
  apply (decide_rank _ _ _ _ _ H5).
  assert (L : s_limited s = lim \/ s_limited s = Some [1020%Z]).
  { refine (forR_inv (fun s => s_limited s = lim \/ s_limited s = Some [1020%Z]) _ _ _ _ _ H2 (or_introl eq_refl)).
    intros v t t' _ Q P. destruct (sort_limited _ _ _ _ _ Q) as [-> | ->]; auto. }
  destruct L as [-> | ->]; [| auto]. destruct (Nat.eqb_spec (rank best) 2) as [Q | Q]; [| injection H1 as <-; auto].
  right. right. split; [exact Q |]. bindE H1 a1 Q1. bindE H1 u Q2. injection H1 as <-. intros l El J. injection El as <-.
  cbn in J. destruct (e_uniform E (ax_nums a1)); cbn in J; intuition discriminate.
Qed.
Lemma axes_all ffi nvpm v (d d' : na) : defineAxes E ffi nvpm v d = Ok d' ->
  exists a more names, v_axes v = a :: more /\ attr d' kXNAME = PList names /\ Forall2 axis_named (v_axes v) names /\
    (ffi = 1001%Z -> more = [] -> attr d' kX = PList (map PNum (ax_nums a))) /\
    (In ffi [2010; 3010; 4010]%Z -> exists r, attr d' kX = PList (PList (map PNum (ax_nums a)) :: r)) /\
    (In ffi [2110; 2310]%Z -> exists b, nth_error more 0 = Some b /\
       attr d' kX = PList (map (fun x => PList [x; PList (ax_items b)]) (ax_items a))) /\
    (ffi <> 2310%Z -> length (ax_nums a) = length (ax_vals a) -> exists dx r, attr d' kDX = PList (dx :: r) /\ length r = length more /\ step_of (ax_nums a) dx).
Proof.
  unfold defineAxes. intros R. cbv zeta in R. bindE R ax0 H0. bindE R name Hname. bindE R dx0 Hdx. bindE R d1 H1. bindE R d2 H2.
  destruct (v_axes v) as [| ax axes] eqn:Ev; [discriminate H0 |]. cbn in H0. injection H0 as ->. cbn [skipn] in H2.
  assert (Ex : exists lX, attr d1 kNX = PList [] /\ attr d1 kNXDEF = PList [] /\ attr d1 kDX = PList [dx0] /\ attr d1 kXNAME = PList [PStr name] /\
     attr d1 kX = PList lX /\ (ffi = 1001%Z -> lX = map PNum (ax_nums ax0)) /\ (In ffi [2010; 3010; 4010]%Z -> lX = [nums (ax_nums ax0)])).
  { destruct (ffi =? 1020)%Z eqn:Q.
    - bindE H1 m Hm. destruct (m =? 0)%nat; [discriminate H1 |]. injection H1 as <-. eexists. repeat (split; [reflexivity |]).
      apply Z.eqb_eq in Q. subst ffi. split; [discriminate |]. cbn. intuition discriminate.
    - destruct (existsb (Z.eqb ffi) [1001; 1010]%Z) eqn:Q1; injection H1 as <-; eexists; repeat (split; [reflexivity |]).
      + intros J. cbn in J. destruct J as [<- | [<- | [<- | []]]]; discriminate Q1.
      + split; [| reflexivity]. intros ->. discriminate Q1. }
  destruct Ex as (lX & A1 & A2 & A3 & A5 & A4 & X1 & X2).
  destruct (append_all axes d1 d2 [] [] [dx0] lX [PStr name] A1 A2 A3 A4 A5 H2) as (es & F & C1 & C2 & C3 & C4 & C5).
  assert (Fn : Forall2 axis_named (ax0 :: axes) (PStr name :: map (fun e => PStr (n_nm e)) es)).
  { constructor; [exists name; auto |]. clear - F. induction F as [| a e la le (_ & _ & N & _) F IH]; cbn [map]; constructor; [exists (n_nm e); auto | exact IH]. }
  assert (St : length (ax_nums ax0) = length (ax_vals ax0) -> step_of (ax_nums ax0) dx0).
  { intros L. unfold ax_len in Hdx. rewrite <- L in Hdx. destruct (Nat.eqb_spec (length (ax_nums ax0)) 1) as [Q | Q].
    - injection Hdx as <-. left. auto.
    - bindE Hdx incr Hi. unfold interval, nth_res in Hi. destruct (nth_error (ax_nums ax0) 1) as [y |] eqn:Y; [| discriminate Hi].
      destruct (nth_error (ax_nums ax0) 0) as [x |] eqn:X; [| discriminate Hi]. cbn in Hi. injection Hi as <-.
      assert (U := spaced_uniform _ _ _ X Y). destruct (uniform (num_minus y x) (ax_nums ax0)).
      + injection Hdx as <-. right. exists x, y. repeat (split; [first [assumption | reflexivity] |]). tauto.
      + injection Hdx as <-. left. split; [reflexivity |]. right. intros Sp. apply U in Sp. discriminate Sp. }
  assert (Le : length (map n_dx es) = length axes) by (rewrite map_length; symmetry; clear - F; induction F; cbn; congruence).
  exists ax0, axes, (PStr name :: map (fun e => PStr (n_nm e)) es). split; [reflexivity |].
  assert (Fin : d' = d2 -> ~ In ffi [2110; 2310]%Z ->
    attr d' kXNAME = PList (PStr name :: map (fun e => PStr (n_nm e)) es) /\ Forall2 axis_named (ax0 :: axes) (PStr name :: map (fun e => PStr (n_nm e)) es) /\
    (ffi = 1001%Z -> axes = [] -> attr d' kX = PList (map PNum (ax_nums ax0))) /\
    (In ffi [2010; 3010; 4010]%Z -> exists r, attr d' kX = PList (PList (map PNum (ax_nums ax0)) :: r)) /\
    (In ffi [2110; 2310]%Z -> exists b, nth_error axes 0 = Some b /\
       attr d' kX = PList (map (fun x => PList [x; PList (ax_items b)]) (ax_items ax0))) /\
    (ffi <> 2310%Z -> length (ax_nums ax0) = length (ax_vals ax0) -> exists dx r, attr d' kDX = PList (dx :: r) /\ length r = length axes /\ step_of (ax_nums ax0) dx)).
  { intros -> Nf. split; [exact C5 |]. split; [exact Fn |]. split.
    { intros Q Qa. rewrite C4, (X1 Q). subst axes. inversion F. cbn [map]. rewrite app_nil_r. reflexivity. }
    split. { intros Q. rewrite C4, (X2 Q). cbn [app]. eexists. reflexivity. }
    split; [tauto |]. intros _ L. rewrite C3. cbn [app]. eexists. eexists. split; [reflexivity |]. split; [exact Le | exact (St L)]. }
  destruct (existsb (Z.eqb ffi) [2110; 2310]%Z) eqn:Q.
  2: { injection R as R. apply Fin; [congruence |]. intros J. cbn in J. destruct J as [<- | [<- | []]]; discriminate Q. }
  clear Fin. assert (Jf : In ffi [2110; 2310]%Z).
  { cbn in Q |- *. destruct (Z.eqb_spec ffi 2110); [auto |]. destruct (Z.eqb_spec ffi 2310); [auto | discriminate Q]. }
  bindE R ax1 H6.
  destruct axes as [| b more]; [discriminate H6 |]. cbn in H6. injection H6 as ->.
  destruct (ffi =? 2110)%Z eqn:Q1.
  - injection R as <-. apply Z.eqb_eq in Q1. repeat (rewrite attr_upd_other by discriminate). 
    split; [exact C5 |]. split; [exact Fn |]. split; [lia |]. split; [cbn; lia |]. split.
    + intros _. exists ax1. split; [reflexivity |]. repeat first [rewrite attr_upd_same; reflexivity | rewrite attr_upd_other by discriminate].
    + intros _ L. repeat (rewrite attr_upd_other by discriminate). rewrite C3. cbn [app]. eexists. eexists. split; [reflexivity |]. split; [exact Le | apply St, L].
  - bindE R incr Hi. bindE R x0 Hx0. injection R as <-. apply Z.eqb_neq in Q1. assert (Q2 : ffi = 2310%Z) by (cbn in Jf; lia).
    repeat (rewrite attr_upd_other by discriminate). split; [exact C5 |]. split; [exact Fn |]. split; [lia |]. split; [cbn; lia |]. split; [| congruence].
    intros _. exists ax1. split; [reflexivity |]. repeat first [rewrite attr_upd_same; reflexivity | rewrite attr_upd_other by discriminate].
Qed.
End FirstAxis.
(** The names of all axes are in XNAME.  All values of the first axis are in X (for
    2110 and 2310, if neither axis holds dates, together with the second axis), and
    DX has its spacing. *)
Theorem C77_axes : forall num (Num : NumOps num) (Ar : ArithOps num) (E : env num) req globals (vars : list (xvar num)) cs c v rest d ffi,
  ~ In (lit "file_format_index") (map fst globals) ->
  convert E req globals vars = Ok (Some cs) -> In c cs -> c_main c = v :: rest -> c_na c = Some d -> d kFFI = Some (PInt ffi) ->
  exists a more names, v_axes v = a :: more /\ attr d kXNAME = PList names /\ Forall2 axis_named (v_axes v) names /\
    (ffi = 1001%Z -> more = [] /\ attr d kX = PList (map PNum (ax_nums a))) /\
    (In ffi [2010; 3010; 4010]%Z -> exists r, attr d kX = PList (PList (map PNum (ax_nums a)) :: r)) /\
    (In ffi [2110; 2310]%Z -> exists b, more = [b] /\
       (ax_time a = None -> ax_time b = None ->
        attr d kX = PList (map (fun x => PList [PNum x; PList (map PNum (ax_vals b))]) (ax_vals a)))) /\
    (ffi <> 2310%Z -> length (ax_nums a) = length (ax_vals a) -> exists dx r, attr d kDX = PList (dx :: r) /\ length r = length more /\ step_of (ax_nums a) dx).
Proof.
  intros num Num Ar E req globals vars cs c v rest d ffi Ng R I Ev Nd Hf.
  destruct (convert_each E _ _ _ _ _ R I) as (vs & C & _ & _).
  destruct (collect_steps E _ _ _ _ _ C Nd) as (a & d1 & d2 & g & d3 & v0 & ax0 & Ha & H1 & H2 & Hg & H3 & _ & _ & Ed & Em & _).
  assert (Fa : forall k, ~ In k (aux_keys ++ global_keys ++ [kNCOM; kNNCOML; kSCOM; kNSCOML] ++ [kRDATE; kDATE; kIVOL; kNVOL]) -> attr d k = attr d1 k).
  { intros k Nk. rewrite !in_app_iff in Nk. unfold attr. rewrite Ed, (same_header E ax0 d3 k) by tauto. rewrite (comments_frame _ _ _ _ H3 k) by tauto.
    rewrite (same_globals E _ _ _ Hg k) by tauto. rewrite (same_aux E _ _ _ H2 k) by tauto. reflexivity. }
  assert (Gf : gs_na g kFFI = d2 kFFI).
  { unfold defineNAGlobals in Hg.
    refine (forR_inv (fun g => gs_na g kFFI = d2 kFFI) _ _ _ _ _ Hg eq_refl).
    intros x s s' Ix Q P. rewrite <- P. apply (item_ffi E x s s'); [| exact Q]. intros Q'. apply Ng. rewrite <- Q'. apply in_map, Ix. }
  assert (Fi : a_ffi a = ffi).
  { rewrite Ed, (same_header E ax0 d3 kFFI) in Hf by (cbn; intuition discriminate). rewrite (comments_frame _ _ _ _ H3 kFFI) in Hf by (cbn; intuition discriminate).
    rewrite Gf, (same_aux E _ _ _ H2 kFFI) in Hf by (cbn; intuition discriminate). rewrite (same_vars E _ _ _ _ _ H1 kFFI) in Hf by (cbn; intuition discriminate).
    cbn in Hf. congruence. }
  assert (Lv : length (v_axes v) = a_niv a).
  { destruct (analyse_merged E _ _ _ Ha) as (best' & _ & _ & Hn' & M & _). rewrite Hn'. rewrite <- Em in M.
    destruct (M v) as [-> | F]; [rewrite Ev; left; reflexivity | reflexivity |]. symmetry. clear - F. unfold rank. induction F; cbn; congruence. }
  rewrite Em in Ev. rewrite Fi in H1. unfold defineNAVars in H1. rewrite Ev in H1. bindE H1 d0 H0.
  destruct (axes_all E _ _ _ _ _ H1) as (b & more & nms & Va & Xn & F & K1 & K2 & K3 & K4).
  exists b, more, nms. rewrite !Fa by (cbn; intuition discriminate). split; [exact Va |]. split; [exact Xn |]. split; [exact F |].
  assert (Rk := analyse_rank E _ _ _ Ha). rewrite <- Lv, Va, Fi in Rk. cbn [length] in Rk.
  split. { intros Q. destruct Rk as (Rk & _). specialize (Rk Q). destruct more; [| cbn in Rk; lia]. auto. }
  split; [exact K2 |]. split; [| exact K4]. intros Q. destruct (K3 Q) as (b2 & Hb & X). exists b2.
  split; [| intros Ta Tb; rewrite X; unfold ax_items, is_time; rewrite Ta, Tb, map_map; reflexivity].
  destruct Rk as (_ & Rk). specialize (Rk Q). destruct more as [| b3 [| b4 more]]; [discriminate Hb | cbn in Hb; congruence | cbn in Rk; lia].
Qed.
Print Assumptions C77_axes.
Definition axes_of (req : option Z) (vars : list (xvar b64)) : list (list (pyv b64)) :=
  match convert env_b req [] vars with
  | Ok (Some cs) => map (fun c => match c_na c with Some d => map (attr d) [kFFI; kXNAME; kX; kDX] | None => [] end) cs
  | _ => []
  end.
(** 1001 with even spacing, 2010, and 2110 on request. *)
Example C77_example :
  axes_of None [bvar (lit "q") [bt] (bdata [bf "1"; bf "0.5"]) None]
    = [[PInt 1001; PList [PStr (lit "t")]; bdata [bf "10"; bf "20"]; bdata [bf "10"]]] /\
  axes_of None bvars
    = [[PInt 2010; PList [PStr (lit "t"); PStr (lit "x")]; PList [bdata [bf "10"; bf "20"]; bdata [bf "1"; bf "2"; bf "4"]]; PList [PNum (bf "10"); PInt 0]]] /\
  axes_of (Some 2110%Z) bvars
    = [[PInt 2110; PList [PStr (lit "t"); PStr (lit "x")];
        PList [PList [PNum (bf "10"); bdata [bf "1"; bf "2"; bf "4"]]; PList [PNum (bf "20"); bdata [bf "1"; bf "2"; bf "4"]]]; PList [PNum (bf "10"); PInt 0]]].
Proof. repeat split; vm_compute; reflexivity. Qed.
