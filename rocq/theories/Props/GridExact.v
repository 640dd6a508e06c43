(** C13 as an equivalence: which dictionaries of FFI 3010 and 4010 come back. *)
From Coq Require Import List NArith ZArith Bool Lia.
From Verif Require Import Py.Str Py.Res Py.Num Model.Dict Model.CommonUtils Model.NAWrite Model.NARead Spec.TextSpec Spec.Records
  Spec.RoundTripSpec Spec.RecordSamples Spec.WholeNum Proofs.StrLemmas Proofs.ReadFrame Proofs.GridExact Proofs.RT6 Proofs.SampleOk Props.RoundTrip.
Import ListNotations.

(** Whatever file is read: of the axes that are listed in the header, the last
    has at least as many values as the first number of NXDEF says, and so on. *)
Theorem C13_lengths : forall num (Num : NumOps num) content ignore c (d : na num),
  (c = C2010 \/ c = C3010 \/ c = C4010) -> read_file content ignore = Ok (c, d) ->
  exists niv nxdef x0 xs, d kNIV = Some (PInt niv) /\ d kNXDEF = Some (PList nxdef) /\ d kX = Some (PList (x0 :: xs)) /\
    ((1 < niv)%Z -> Forall2 (fun n v => exists k x, n = PInt k /\ v = PList x /\ (k <= Z.of_nat (length x))%Z) nxdef (rev xs)).
Proof.
  intros num Num content ignore c d Hc E. destruct (read_enough content ignore c d Hc E) as (niv & nxdef & x0 & ls & H1 & H2 & H3 & H4 & H5).
  exists niv, nxdef, x0, (rev ls). split; [exact H1|]. split; [exact H2|]. split; [exact H3|]. intros Hn. rewrite rev_involutive.
  rewrite firstn_all2 in H5 by lia. exact H5.
Qed.

Local Ltac nodup_aux := match goal with |- context [aux_items (map norm_var ?a)] => destruct a; cbn [map aux_items]; nodup end.
Lemma rev_le (l : list nat) : Forall2 le l (rev l) -> rev l = l.
Proof.
  intros K. assert (K' : Forall2 le (rev l) l).
  { assert (G : forall a b : list nat, Forall2 le a b -> Forall2 le (rev a) (rev b)).
    { clear. induction 1 as [|x y a b Q F IH]; [constructor|]. cbn [rev]. apply Forall2_app; [exact IH|]. repeat constructor. exact Q. }
    apply G in K. now rewrite rev_involutive in K. }
  assert (G : forall a b : list nat, Forall2 le a b -> Forall2 le b a -> a = b).
  { clear. induction 1 as [|x y a b Q F IH]; intros F'; [reflexivity|]. inversion F'; subst. f_equal; [lia|auto]. }
  symmetry. now apply G.
Qed.
(** A well-formed dictionary of FFI 3010 or 4010 comes back exactly if the
    numbers of listed values are the same in both directions. *)
Theorem C13_exact_partial : forall num (Num : NumOps num) (o : opts num) g (r : r2010 num) (d : na num) nlh c,
  plain_opts o g -> ok2010 r ->
  (length (r4_nx r) = 2%nat /\ c = C3010 \/ length (r4_nx r) = 3%nat /\ c = C4010) ->
  has d (items2010 r) -> attr d kNLHEAD = PInt nlh ->
  comes_back o c d (items2010 (norm2010 g r)) <->
  rev (map (fun a => length (x_def a)) (r4_axes r)) = map (fun a => length (x_def a)) (r4_axes r).
Proof.
  intros num Num o g r d nlh c Ho Hr Hc Hd Hn. split; [|intros Hp; eapply C13_roundtrip_3010_4010_partial; eauto].
  intros K. destruct (K []) as (file & hdr & d2 & _ & data & d' & _ & Er & Hd').
  assert (Hk : c = C2010 \/ c = C3010 \/ c = C4010) by (destruct Hc as [[_ ->] | [_ ->]]; auto).
  destruct (C13_lengths _ _ _ _ _ _ Hk Er) as (niv & nxdef & x0 & xs & H1 & H2 & H3 & H4).
  assert (Hi : has d' (items2010 (norm2010 g r))) by (eapply read_has; [|exact Hd']; unfold items2010, norm2010; cbn [r4_aux]; nodup_aux).
  assert (E1 : niv = Z.of_nat (S (length (r4_nx r)))).
  { pose proof (Hi kNIV (PInt (Z.of_nat (S (length (r4_nx r))))) ltac:(unfold items2010; rewrite !in_app_iff; cbn; tauto)) as Q. rewrite H1 in Q. congruence. }
  pose proof (Hi kNXDEF (PList (map (fun a => len_pv (x_def a)) (r4_axes (norm2010 g r)))) ltac:(unfold items2010; rewrite !in_app_iff; cbn; tauto)) as Q2.
  pose proof (Hi kX (PList (map nums_pv (r4_x (norm2010 g r) :: map x_def (r4_axes (norm2010 g r))))) ltac:(unfold items2010; rewrite !in_app_iff; cbn; tauto)) as Q3.
  rewrite H2 in Q2. rewrite H3 in Q3. injection Q2 as ->. cbn [map] in Q3. injection Q3 as _ ->.
  assert (Hl : (1 < niv)%Z) by (subst niv; destruct Hc as [[-> _] | [-> _]]; reflexivity). specialize (H4 Hl).
  apply rev_le. clear - H4. cbn [norm2010 r4_axes] in H4. rewrite !map_map, <- map_rev in H4. rewrite <- map_rev.
  revert H4. generalize (rev (r4_axes r)) as b. induction (r4_axes r) as [|a l IH]; intros [|y b] F; cbn [map] in F |- *; inversion F as [|? ? ? ? (k & x & K1 & K2 & K3) F']; subst; constructor; [|apply IH; exact F'].
  unfold len_pv, nums_pv in K1, K2. injection K1 as <-. injection K2 as <-. cbn [x_def norm_axis] in K3. rewrite !map_length in K3. lia.
Qed.
Example C13_exact_example : comes_back opts_whole C3010 (dict_of (items2010 s3010)) (items2010 (norm2010 (fun x => x) s3010)) /\
  ~ comes_back opts_whole C3010 (dict_of (items2010 s3010b)) (items2010 (norm2010 (fun x => x) s3010b)).
Proof.
  split.
  - eapply C13_exact_partial; [apply plain_whole|apply s3010_ok|left; auto|apply dict_of_has; nodup|reflexivity|reflexivity].
  - rewrite C13_exact_partial; [|apply plain_whole|apply s3010b_ok|left; auto|apply dict_of_has; nodup|reflexivity]. vm_compute. discriminate.
Qed.
Print Assumptions C13_lengths.
Print Assumptions C13_exact_partial.
