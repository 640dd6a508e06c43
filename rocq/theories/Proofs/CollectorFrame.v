(** Which entries of the dictionary each step of the collector sets. *)
From Coq Require Import List NArith ZArith Bool Lia.
From Verif Require Import Py.Str Py.Res Py.Num Py.Arith Model.Dict Model.Xarray Model.Collector
  Proofs.StrLemmas Proofs.ReadFrame Proofs.CollectorLemmas.
Import ListNotations.

Section Frame.
Context {num : Type} {Num : NumOps num} {Ar : ArithOps num}.
Local Notation xvar := (xvar num).
Local Notation na := (na num).
Variable E : env num.

Lemma same_forR {A} ks (f : A -> na -> Res na) l : (forall x d d', f x d = Ok d' -> same_except ks d d') ->
  forall d d', forR l f d = Ok d' -> same_except ks d d'.
Proof.
  intros Hf. induction l as [| x t IH]; intros d d' R; cbn in R; [injection R as <-; apply same_refl |].
  bindE R d1 H1. exact (same_trans _ _ _ _ (Hf _ _ _ H1) (IH _ _ R)).
Qed.
Lemma push_inv (d : na) k v d' : push d k v = Ok d' -> exists l, attr d k = PList l /\ d' = upd d k (PList (l ++ [v])).
Proof.
  unfold push. intros R. bindE R x Hx. injection R as <-. unfold app_item in Hx. destruct (attr d k); try discriminate Hx.
  injection Hx as <-. eauto.
Qed.
Lemma same_push ks (d : na) k v d' : push d k v = Ok d' -> In k ks -> same_except ks d d'.
Proof. intros R I. destruct (push_inv _ _ _ _ R) as (l & _ & ->). apply same_upd; [apply same_refl | exact I]. Qed.
Definition axis_keys : list key := [kNX; kXNAME; kDX; kNXDEF; kX].
Ltac same := repeat (apply same_upd; [| cbn; tauto]); apply same_refl.
Ltac pushes := repeat match goal with H : push ?d ?k ?v = Ok ?d' |- same_except ?ks _ ?d' =>
  apply (same_trans ks _ d d'); [clear H | apply (same_push ks d k v d' H); cbn; tauto] end; try apply same_refl.
Lemma same_append ax (d d' : na) : appendAxisDefinition ax d = Ok d' -> same_except axis_keys d d'.
Proof.
  unfold appendAxisDefinition, axis_keys. intros R. cbv zeta in R.
  bindE R d1 H1. bindE R n H2. bindE R d2 H3. destruct (ax_len ax <? 2)%nat.
  - bindE R d3 H4. bindE R d4 H5. pushes.
  - bindE R incr H4. destruct (negb (is_time ax) && uniform incr (ax_vals ax)); bindE R d3 H5; bindE R d4 H6; pushes.
Qed.
Lemma same_axes ffi nvpm v (d d' : na) : defineAxes E ffi nvpm v d = Ok d' ->
  same_except (axis_keys ++ [kA; kANAME; kAMISS; kASCAL]) d d'.
Proof.
  unfold defineAxes. intros R. cbv zeta in R. bindE R ax0 H1. bindE R n H2. bindE R dx0 H3. bindE R d1 H4. bindE R d2 H5.
  assert (S1 : same_except (axis_keys ++ [kA; kANAME; kAMISS; kASCAL]) d d1).
  { destruct (ffi =? 1020)%Z.
    - bindE H4 m Hm. destruct (m =? 0)%nat; [discriminate H4 |]. injection H4 as <-. same.
    - destruct (existsb (Z.eqb ffi) [1001; 1010]%Z); injection H4 as <-; same. }
  assert (S2 : same_except (axis_keys ++ [kA; kANAME; kAMISS; kASCAL]) d1 d2).
  { apply (same_mono axis_keys); [intros k I; apply in_app_iff; left; exact I |]. exact (same_forR _ _ _ same_append _ _ H5). }
  apply (same_trans _ _ _ _ S1). apply (same_trans _ _ _ _ S2).
  destruct (existsb (Z.eqb ffi) [2110; 2310]%Z); [| injection R as <-; apply same_refl].
  bindE R ax1 H6. destruct (ffi =? 2110)%Z.
  - injection R as <-. same.
  - bindE R incr H7. bindE R x0 H8. injection R as <-. same.
Qed.
Lemma same_var a b c e v (d d' : na) : defineVar E a b c e v d = Ok d' -> same_except [a; b; c; e] d d'.
Proof.
  unfold defineVar. intros R. bindE R n H1. bindE R d1 H2. bindE R miss H3. bindE R d2 H4. bindE R d3 H5. bindE R vals H6. pushes.
Qed.
Definition var_keys : list key := [kNV; kVNAME; kVMISS; kVSCAL; kV] ++ axis_keys ++ [kA; kANAME; kAMISS; kASCAL].
Lemma same_vars ffi nvpm vs (d d' : na) : defineNAVars E ffi nvpm vs d = Ok d' -> same_except var_keys d d'.
Proof.
  unfold defineNAVars. intros R. cbv zeta in R. cbn [fold_left] in R. bindE R d1 H1.
  assert (S1 : same_except var_keys d d1).
  { eapply same_trans; [| apply (same_mono [kVNAME; kVMISS; kVSCAL; kV]); [| exact (same_forR _ _ _ (same_var _ _ _ _) _ _ H1)]].
    - same.
    - intros k I. cbn in I |- *. tauto. }
  apply (same_trans _ _ _ _ S1). destruct vs as [| v t]; [injection R as <-; apply same_refl |].
  apply (same_mono (axis_keys ++ [kA; kANAME; kAMISS; kASCAL])); [| exact (same_axes _ _ _ _ _ R)].
  intros k I. apply in_app_iff. right. exact I.
Qed.
Definition aux_keys : list key := [kANAME; kAMISS; kASCAL; kA; kNAUXV].
Lemma same_default ks : forall l (d : na), incl l ks ->
  same_except ks d (fold_left (fun d k => match d k with None => upd d k (PList []) | Some _ => d end) l d).
Proof.
  induction l as [| k t IH]; intros d I; cbn; [apply same_refl |].
  eapply same_trans; [| apply IH; intros x Ix; apply I; right; exact Ix].
  destruct (d k); [apply same_refl | apply same_upd; [apply same_refl | apply I; left; reflexivity]].
Qed.
Lemma same_aux vs (d d' : na) : defineNAAuxVars E vs d = Ok d' -> same_except aux_keys d d'.
Proof.
  unfold defineNAAuxVars. intros R. cbv zeta in R. bindE R d1 H1. bindE R a H2. injection R as <-.
  apply same_upd; [| cbn; tauto]. eapply same_trans; [| apply (same_mono [kANAME; kAMISS; kASCAL; kA]); [| exact (same_forR _ _ _ (same_var _ _ _ _) _ _ H1)]].
  - apply same_default. intros k I. cbn in I |- *. tauto.
  - intros k I. cbn in I |- *. tauto.
Qed.
Definition global_keys : list key := [kDATE; kONAME; kORG; kSNAME; kMNAME; kFFI; kNLHEAD; kNVOL; kIVOL].
Lemma same_item p (s s' : gst) : global_item E p s = Ok s' -> same_except global_keys (gs_na s) (gs_na s').
Proof.
  unfold global_item. destruct p as [k g]. cbv zeta. intros R.
  destruct (str_eqb k (lit "first_valid_date_of_data")).
  { destruct (numpy_scalar g); [discriminate R |]. injection R as <-. cbn [gs_na]. same. }
  destruct (negb (negb (g_np g) && match g_val g with PStr _ | PInt _ | PNum _ => true | _ => false end)).
  { injection R as <-. apply same_refl. }
  destruct (str_eqb k (lit "history")). { bindE R t Ht. injection R as <-. apply same_refl. }
  destruct (str_eqb k (lit "institution")).
  { destruct (g_val g); try discriminate R. destruct (match institution_match s0 with Some p => p | None => (s0, s0) end). injection R as <-. cbn [gs_na]. same. }
  destruct (str_eqb k (lit "comment")).
  { destruct (g_val g); try discriminate R. destruct (sort_comments (split_chr c_nl s0) false false). injection R as <-. apply same_refl. }
  destruct (lookup k plain_map) as [key |] eqn:L.
  - injection R as <-. cbn [gs_na]. apply same_upd; [apply same_refl |]. unfold plain_map in L. cbn [lookup] in L.
    repeat (match type of L with (if ?b then _ else _) = _ => destruct b end; [injection L as <-; cbn; tauto |]). discriminate L.
  - bindE R t Ht. injection R as <-. apply same_refl.
Qed.
Lemma same_globals gl (d : na) g : defineNAGlobals E gl d = Ok g -> same_except global_keys d (gs_na g).
Proof.
  unfold defineNAGlobals. intros R.
  refine (forR_inv (fun g => same_except global_keys d (gs_na g)) _ _ _ _ _ R (same_refl _ _)).
  intros x s s' _ Q S. exact (same_trans _ _ _ _ S (same_item _ _ _ Q)).
Qed.
Lemma same_header ax0 (d : na) : same_except [kRDATE; kDATE; kIVOL; kNVOL] d (defineGeneralHeader E ax0 d).
Proof.
  unfold defineGeneralHeader. cbv zeta. apply same_upd; [apply same_upd; [| cbn; tauto] | cbn; tauto].
  destruct (is_time ax0); [same |]. match goal with |- context [match ?x with Some _ => _ | None => _ end] => destruct x end; same.
Qed.
(** all steps *)
Lemma collect_steps req globals vars c d : collectNAContent E req globals vars = Ok c -> c_na c = Some d ->
  exists a d1 d2 g d3 v0 ax0,
    analyseVariables E req vars = Ok (Some a) /\
    (let d := upd na_empty kNIV (PInt (Z.of_nat (a_niv a))) in
     let d := match a_nvpm a with Some n => upd d kNVPM (PInt (Z.of_nat n)) | None => d end in
     defineNAVars E (a_ffi a) (a_nvpm a) (a_main a) (upd (upd d kFFI (PInt (a_ffi a))) kNLHEAD (PInt (-999)))) = Ok d1 /\
    defineNAAuxVars E (a_aux a) d1 = Ok d2 /\ defineNAGlobals E globals d2 = Ok g /\
    defineNAComments g (a_zero a) (a_main a) = Ok d3 /\ nth_res (a_main a) 0 = Ok v0 /\ nth_res (v_axes v0) 0 = Ok ax0 /\
    d = defineGeneralHeader E ax0 d3 /\ c_main c = a_main a /\ c_aux c = a_aux a.
Proof.
  unfold collectNAContent. intros R N. bindE R o Ho. destruct o as [a |]; [| injection R as <-; discriminate N].
  bindE R d1 H1. bindE R d2 H2. bindE R g Hg. bindE R d3 H3. bindE R v Hv. bindE R ax Hax. injection R as <-. injection N as <-.
  exists a, d1, d2, g, d3, v, ax. repeat (split; [first [assumption | reflexivity] |]). reflexivity.
Qed.
End Frame.
