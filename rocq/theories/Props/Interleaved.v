(** FFI 2310 with several primary variables (C16). *)
From Coq Require Import List NArith ZArith Bool Lia.
From Verif Require Import Py.Str Py.Res Py.Num Model.Dict Model.CommonUtils Model.NAWrite Model.NARead
  Spec.TextSpec Spec.Records Spec.RoundTripSpec Spec.Interleave Spec.WholeNum Spec.RecordSamples
  Proofs.RTData Proofs.RT4 Proofs.RT4n Proofs.SampleOk Props.RoundTrip.
Import ListNotations.

(** What is read back, whatever the number of variables: everything as it was,
    and the values in the order [mixed] says. *)
Theorem C16_several_partial : forall num (Num : NumOps num) (o : opts num) g (r : r2310n num) (d : na num) nlh,
  plain_opts o g -> ok2310n g r -> has d (items2310n r) -> attr d kNLHEAD = PInt nlh ->
  comes_back o C2310 d (items2310n (read2310n_as g r)).
Proof. intros num Num o g r d nlh (H1 & H2 & H3 & H4). intros. eapply rt2310n; eauto. Qed.

(** The values stay where they were if there is one variable or no mark has
    more than one point, and only then. *)
Definition table {num} (nxs : list nat) (nv : nat) (V : list (list (list (number num)))) : Prop :=
  length V = nv /\ Forall (Forall2 (fun n v => length v = n) nxs) V.
Lemma mixed_same {num} nxs (V : list (list (list (number num)))) : Forall (Forall2 (fun n v => length v = n) nxs) V ->
  (length V = 1%nat \/ Forall (fun n => n <= 1)%nat nxs) -> mixed nxs V = V.
Proof.
  intros Hs Hc. unfold mixed. apply (nth_ext _ _ [] []); [now rewrite map_length, seq_length|].
  intros n Hn. rewrite map_length, seq_length in Hn. rewrite (nth_map_lt _ _ _ 0%nat) by now rewrite seq_length.
  rewrite seq_nth by auto. cbn [Nat.add].
  pose proof (sized_len _ _ n Hs Hn) as L. apply (nth_ext _ _ [] []); [now rewrite map_length, seq_length|].
  intros m Hm. rewrite map_length, seq_length in Hm. rewrite (nth_map_lt _ _ _ 0%nat) by now rewrite seq_length.
  rewrite seq_nth by auto. cbn [Nat.add].
  pose proof (sized_at _ _ n m Hs Hn Hm) as L2. apply (nth_ext _ _ (NI 0) (NI 0)); [now rewrite map_length, seq_length|].
  intros i Hi. rewrite map_length, seq_length in Hi. rewrite (nth_map_lt _ _ _ 0%nat) by now rewrite seq_length.
  rewrite seq_nth by auto. cbn [Nat.add]. unfold cell. destruct Hc as [Hc|Hc].
  - rewrite Hc in *. rewrite Nat.div_1_r, Nat.mod_1_r. assert (n = 0%nat) as -> by lia. reflexivity.
  - rewrite Forall_forall in Hc. specialize (Hc _ (nth_In nxs 0%nat Hm)).
    assert (E1 : nth m nxs 0%nat = 1%nat) by lia. assert (i = 0%nat) as -> by lia.
    rewrite E1, Nat.mul_1_r, Nat.add_0_r, Nat.div_small, Nat.mod_small by auto. reflexivity.
Qed.
Theorem C16_which_stay : forall num nxs nv, (0 < nv)%nat ->
  ((nv = 1%nat \/ Forall (fun n => n <= 1)%nat nxs) <->
   (forall V : list (list (list (number num))), table nxs nv V -> mixed nxs V = V)).
Proof.
  intros num nxs nv Hnv. split.
  - intros Hc V [<- Hs]. now apply mixed_same.
  - intros K. destruct (Nat.eq_dec nv 1) as [|Hn]; [auto|right]. rewrite Forall_forall. intros nx Hi.
    destruct (Nat.le_gt_cases nx 1) as [|Hx]; [auto|exfalso].
    apply (In_nth _ _ 0%nat) in Hi as (m & Hm & Em).
    pose (V := map (fun n => map (fun k => repeat (@NI num (Z.of_nat n)) k) nxs) (seq 0 nv)).
    assert (HV : table nxs nv V).
    { split; [unfold V; now rewrite map_length, seq_length|]. unfold V. rewrite Forall_map, Forall_forall. intros n _.
      clear. induction nxs as [|k t IH]; constructor; auto. now rewrite repeat_length. }
    assert (C : forall n i, (n < nv)%nat -> (i < nx)%nat -> cell V n m i = NI (Z.of_nat n)).
    { intros n i L1 L2. unfold cell, V. rewrite (nth_map_lt _ _ _ 0%nat) by now rewrite seq_length.
      rewrite seq_nth by auto. rewrite (nth_map_lt _ _ _ 0%nat) by auto. rewrite Em. cbn [Nat.add].
      rewrite (nth_indep _ _ (NI (Z.of_nat n))) by now rewrite repeat_length. apply nth_repeat. }
    specialize (K V HV). apply (f_equal (fun W => cell W 0 m 1)) in K.
    rewrite (C 0%nat 1%nat) in K by lia.
    unfold cell at 1, mixed in K. destruct HV as [LV _].
    rewrite (nth_map_lt _ _ _ 0%nat) in K by (rewrite seq_length; lia).
    rewrite seq_nth in K by lia. rewrite (nth_map_lt _ _ _ 0%nat) in K by now rewrite seq_length.
    rewrite seq_nth in K by auto. rewrite (nth_map_lt _ _ _ 0%nat) in K by (rewrite seq_length; cbn [Nat.add]; lia).
    rewrite seq_nth in K by (cbn [Nat.add]; lia). cbn [Nat.add Nat.mul] in K.
    rewrite LV, Nat.div_small, Nat.mod_small in K by lia. rewrite C in K by lia. discriminate.
Qed.

(** Nothing is lost: every value that was written is somewhere in the table that
    is read, at the same mark. *)
Theorem C16_nothing_lost : forall num nxs (V : list (list (list (number num)))) n m i,
  table nxs (length V) V -> (n < length V)%nat -> (m < length nxs)%nat -> (i < nth m nxs 0)%nat ->
  exists n' i', (n' < length V)%nat /\ (i' < nth m nxs 0)%nat /\ cell (mixed nxs V) n' m i' = cell V n m i.
Proof.
  intros num nxs V n m i [_ Hs] Hn Hm Hi. set (nx := nth m nxs 0%nat) in *. set (k := (i * length V + n)%nat).
  assert (Hk : (k < nx * length V)%nat) by (unfold k; nia).
  exists (k / nx)%nat, (k mod nx)%nat.
  assert (L1 : (k / nx < length V)%nat) by (apply Nat.div_lt_upper_bound; lia).
  assert (L2 : (k mod nx < nx)%nat) by (apply Nat.mod_upper_bound; lia).
  split; [auto|]. split; [auto|].
  unfold cell at 1, mixed.
  rewrite (nth_map_lt _ _ _ 0%nat) by now rewrite seq_length.
  rewrite seq_nth by auto. rewrite (nth_map_lt _ _ _ 0%nat) by now rewrite seq_length.
  rewrite seq_nth by auto. cbn [Nat.add]. fold nx. rewrite (nth_map_lt _ _ _ 0%nat) by now rewrite seq_length.
  rewrite seq_nth by auto. cbn [Nat.add].
  replace (k / nx * nx + k mod nx)%nat with k by (rewrite (Nat.div_mod k nx) at 1; lia).
  unfold k. rewrite Nat.add_comm, Nat.div_add, Nat.mod_add, Nat.div_small, Nat.mod_small by lia. reflexivity.
Qed.

(** Two variables, marks with two and with one points. *)
Definition q2310 : r2310n whole := mk2310n sample_common [va "temp (K)"; va "hum (%)"] [va "n"; va "start"; va "step"]
  [fl 0; NI 10; NI 20] (lit "height (m)", lit "time (s)") (fls [1; 2]%Z) [2; 1]%nat
  [fls [2; 1]%Z; fls [100; 150]%Z; fls [10; 20]%Z] [[fls [1; 2]%Z; fls [5]%Z]; [fls [3; 4]%Z; fls [6]%Z]].
Example C16_several_example :
  comes_back opts_whole C2310 (dict_of (items2310n q2310)) (items2310n (read2310n_as (fun x => x) q2310)) /\
  q_v (read2310n_as (fun x => x) q2310) = [[fls [1; 3]%Z; fls [5]%Z]; [fls [2; 4]%Z; fls [6]%Z]].
Proof.
  split; [|reflexivity].
  eapply C16_several_partial; [apply plain_whole| |apply dict_of_has; nodup|reflexivity].
  split; [apply common_sample_ok|]. cbn. ok; eexists; split; reflexivity.
Qed.

Print Assumptions C16_several_partial.
Print Assumptions C16_which_stay.
Print Assumptions C16_nothing_lost.
