(** Which axes are evenly spaced enough for FFI 2310: property C110. *)
From Coq Require Import List NArith ZArith QArith Bool Lia Field Floats.SpecFloat.
From Verif Require Import Py.Str Py.Res Py.Num Py.Arith Model.Dict Model.CommonUtils Model.Xarray Model.Collector Model.Linspace
  Spec.Binary64 Spec.QNum Spec.LinspaceSpec Proofs.FloatExact Proofs.ConfigLemmas Proofs.CollectorLemmas Props.AxisProps Props.NcRoundTrip.
Import ListNotations.

(** ** The instances: exact numbers, and floating point numbers *)
Local Instance QAr : ArithOps Q := {| num_plus := Qplus; num_minus := Qminus; num_times := Qmult; num_same := Qeq_bool; num_isnan := fun _ => false |}.
Local Instance QDiv : DivOps Q := {| num_over := Qdiv |}.
Global Instance BDiv : DivOps b64 := {| num_over := SFdiv b_prec b_emax |}.

(** ** The test, place by place *)
Section Any.
Context {num : Type} `{NumOps num} `{ArithOps num} `{DivOps num}.
Lemma pairwise (f : nat -> num) (l : list num) k :
  forallb (fun p => num_same (fst p) (snd p)) (combine (map f (seq k (length l))) l) = true <->
  forall i x, nth_error l i = Some x -> num_same (f (k + i)%nat) x = true.
Proof.
  revert k. induction l as [| y l IH]; intros k; cbn [length seq map combine forallb].
  - split; [intros _ [|] x Q; discriminate Q | reflexivity].
  - rewrite andb_true_iff, IH. cbn [fst snd]. split.
    + intros (A & B) [| i] x Q; [injection Q as <-; rewrite Nat.add_0_r; exact A |].
      replace (k + S i)%nat with (S k + i)%nat by lia. apply B. exact Q.
    + intros A. split; [specialize (A 0%nat y eq_refl); rewrite Nat.add_0_r in A; exact A |].
      intros i x Q. replace (S k + i)%nat with (k + S i)%nat by lia. apply A. exact Q.
Qed.
Lemma spaced_iff (y : num) (l : list num) :
  isUniformlySpaced (y :: l) = Ok true <->
  forall i x, nth_error (y :: l) i = Some x -> num_same (linspace_at y (last (y :: l) y) (length (y :: l)) i) x = true.
Proof.
  unfold isUniformlySpaced, linspace. rewrite <- (pairwise (linspace_at y (last (y :: l) y) (length (y :: l))) (y :: l) 0).
  split; [congruence | intros ->; reflexivity].
Qed.
Lemma last_nth (y d : num) l : nth_error (y :: l) (length l) = Some (last (y :: l) d).
Proof.
  revert y. induction l as [| z l IH]; intros y; [reflexivity |].
  change (last (y :: z :: l) d) with (last (z :: l) d). cbn [length nth_error]. apply IH.
Qed.
End Any.

(** ** Exact numbers: a list passes exactly if it has one difference throughout *)
Lemma inj_nz n : (0 < n)%nat -> ~ (inject_Z (Z.of_nat n) == 0)%Q.
Proof. intros Hn Q. unfold Qeq, inject_Z in Q. cbn in Q. lia. Qed.
Theorem C110_partial : forall l : list Q, l <> [] -> (isUniformlySpaced l = Ok true <-> even_Q l).
Proof.
  intros [| y l] Ne; [congruence |]. clear Ne. rewrite spaced_iff. set (n := length (y :: l)). set (z := last (y :: l) y).
  assert (Hz : nth_error (y :: l) (n - 1) = Some z).
  { unfold n, z. cbn [length]. replace (S (length l) - 1)%nat with (length l) by lia. apply last_nth. }
  assert (Hi : forall i x, nth_error (y :: l) i = Some x -> (i < n)%nat) by (intros i x Q; apply nth_error_Some; congruence).
  unfold linspace_at. cbn [num_plus num_minus num_times num_same num_over num_of_Z QOps QAr QDiv].
  destruct (Nat.leb_spec n 1) as [L | L].
  - assert (l = []) as -> by (unfold n in L; cbn in L; destruct l; [reflexivity | cbn in L; lia]).
    split; intros A.
    + exists y, 0%Q. intros [| [|]] x Q; [injection Q as <-; ring | discriminate Q | discriminate Q].
    + intros [| [|]] x Q; [injection Q as <- | discriminate Q | discriminate Q].
      apply Qeq_bool_iff. unfold z. cbn [last]. change (inject_Z (Z.of_nat 0)) with 0%Q. ring.
  - pose proof (inj_nz (n - 1) ltac:(lia)) as Nz. split.
    + intros A. exists y, ((z - y) / inject_Z (Z.of_nat (n - 1)))%Q. intros i x Q. specialize (A i x Q). specialize (Hi i x Q).
      destruct (Nat.eqb_spec (S i) n) as [En | En].
      * assert (x = z) as -> by (replace i with (n - 1)%nat in Q by lia; congruence). replace i with (n - 1)%nat by lia. field. exact Nz.
      * destruct (Qeq_bool ((z - y) / inject_Z (Z.of_nat (n - 1))) (inject_Z 0)); apply Qeq_bool_iff in A; rewrite <- A; field; exact Nz.
    + intros (a & s & A) i x Q. pose proof (A (n - 1)%nat z Hz) as Az. pose proof (A 0%nat y eq_refl) as Ay. pose proof (A i x Q) as Ax. specialize (Hi i x Q).
      change (inject_Z (Z.of_nat 0)) with 0%Q in Ay.
      destruct (Nat.eqb_spec (S i) n) as [En | En].
      * replace i with (n - 1)%nat in Q by lia. rewrite Hz in Q. injection Q as <-. apply Qeq_bool_iff. reflexivity.
      * destruct (Qeq_bool ((z - y) / inject_Z (Z.of_nat (n - 1))) (inject_Z 0)); apply Qeq_bool_iff; rewrite Ax, Ay, Az; field; exact Nz.
Qed.
Print Assumptions C110_partial.

(** ** Floating point numbers that are multiples of one power of two *)
Lemma b_of_Z_fl i : num_of_Z (num:=b64) i = fl i 0. Proof. reflexivity. Qed.
Lemma zero_times_plus s e x : s <> 0%Z -> in_range s -> in_range x -> (-1074 <= e <= 971)%Z ->
  SFadd b_prec b_emax (SFmul b_prec b_emax (fl 0 0) (fl s e)) (fl x e) = fl x e.
Proof.
  intros Ns Rs Rx He. destruct (fl_parts s e Rs He Ns) as (m & q & Q & _). rewrite Q, fl_zero. cbn [SFmul].
  destruct (Z.eq_dec x 0) as [-> | Nx].
  - rewrite fl_zero. cbn [SFadd]. destruct (Bool.eqb (xorb false (s <? 0)%Z) false) eqn:B; [| reflexivity]. apply eqb_prop in B. rewrite B. reflexivity.
  - destruct (fl_parts x e Rx He Nx) as (m' & q' & Q' & _). rewrite Q'. reflexivity.
Qed.
Lemma fl_eq z e : in_range z -> (-1074 <= e <= 971)%Z -> SFeqb (fl z e) (fl z e) = true.
Proof.
  intros R He. destruct (fl_same z e) as [Q | Q]; [exact Q |]. destruct (Z.eq_dec z 0) as [-> | Nz]; [discriminate Q |].
  destruct (fl_parts z e R He Nz) as (m & q & Q' & _). congruence.
Qed.
(** Whole multiples of 2^e from 2^-1074 to 2^971, of which all are below 2^52
    multiples: evenly spaced ones pass. *)
Theorem C110_floats_partial : forall e z0 s n, (-1074 <= e <= 971)%Z -> s <> 0%Z -> (0 < n)%nat ->
  (Z.abs z0 < 2 ^ 52)%Z -> (Z.abs (z0 + Z.of_nat (n - 1) * s) < 2 ^ 52)%Z ->
  isUniformlySpaced (map (fun z => fl z e) (evenly z0 s n)) = Ok true.
Proof.
  intros e z0 s n He Ns Hn R0 R1. set (L := map (fun z => fl z e) (evenly z0 s n)).
  assert (Nth : forall i x, nth_error L i = Some x -> (i < n)%nat /\ x = fl (z0 + Z.of_nat i * s) e).
  { intros i x Q. assert (Hi : (i < n)%nat).
    { assert (i < length L)%nat by (apply nth_error_Some; congruence). unfold L, evenly in *. rewrite !map_length, seq_length in *. assumption. }
    split; [exact Hi |]. unfold L, evenly in Q. rewrite !nth_error_map in Q.
    rewrite (nth_error_nth' (seq 0 n) 0%nat) in Q by (rewrite seq_length; exact Hi). rewrite seq_nth in Q by exact Hi.
    cbn [option_map Nat.add] in Q. congruence. }
  assert (Len : length L = n) by (unfold L, evenly; rewrite !map_length, seq_length; reflexivity).
  assert (Between : forall i, (i < n)%nat -> (Z.abs (z0 + Z.of_nat i * s) < 2 ^ 52)%Z) by (intros i Hi; nia).
  assert (Rs : forall i, (i < n)%nat -> in_range (z0 + Z.of_nat i * s)) by (intros i Hi; pose proof (Between i Hi); unfold in_range; lia).
  assert (Ri : forall i, (i < n)%nat -> in_range (Z.of_nat i * s)) by (intros i Hi; pose proof (Between i Hi); unfold in_range; lia).
  destruct L as [| y l] eqn:EL; [cbn in Len; lia |].
  apply spaced_iff. intros i x Q. rewrite Len.
  assert (Ey : y = fl z0 e). { destruct (Nth 0%nat y eq_refl) as (_ & ->). f_equal. lia. }
  assert (Ez : last (y :: l) y = fl (z0 + Z.of_nat (n - 1) * s) e).
  { destruct (Nth _ _ (last_nth y y l)) as (_ & ->). cbn [length] in Len. do 4 f_equal. lia. }
  destruct (Nth i x Q) as (Hi & ->). rewrite Ez, Ey. clear Q. pose proof (Rs 0%nat Hn) as R00. rewrite Z.mul_0_l, Z.add_0_r in R00.
  unfold linspace_at. cbn [num_plus num_minus num_times num_same num_over BArith BDiv]. rewrite !b_of_Z_fl.
  rewrite fl_sub by (auto; try (apply Rs; lia); replace (z0 + Z.of_nat (n - 1) * s - z0)%Z with (Z.of_nat (n - 1) * s)%Z by lia; apply Ri; lia).
  replace (z0 + Z.of_nat (n - 1) * s - z0)%Z with (Z.of_nat (n - 1) * s)%Z by lia.
  destruct (Nat.leb_spec n 1) as [L1 | L1].
  - replace (n - 1)%nat with 0%nat by lia. replace i with 0%nat by lia. change (Z.of_nat 0) with 0%Z. rewrite Z.mul_0_l, Z.add_0_r, !fl_zero.
    cbn [SFmul xorb]. destruct (Z.eq_dec z0 0) as [-> | Nz]; [reflexivity |].
    destruct (fl_parts z0 e R00 He Nz) as (m & q & F & _). rewrite F. cbn [SFadd]. rewrite <- F. now apply fl_eq.
  - destruct (Nat.eqb_spec (S i) n) as [En | En].
    + replace (n - 1)%nat with i by lia. apply fl_eq; auto.
    + assert (Bs : in_range s). { pose proof (Ri 1%nat ltac:(lia)) as B. rewrite Z.mul_1_l in B. exact B. }
      assert (Bn : forall k, (k < n)%nat -> in_range (Z.of_nat k)) by (intros k Hk; pose proof (Ri k Hk) as B; unfold in_range in *; nia).
      rewrite fl_div; [| lia | auto | apply Bn; lia | auto | apply Ri; lia | auto].
      replace (SFeqb (fl s e) (fl 0 0)) with false.
      2: { destruct (fl_parts s e Bs He Ns) as (m & q & F & _). rewrite F, fl_zero. unfold SFeqb. cbn [SFcompare]. destruct (s <? 0)%Z; reflexivity. }
      destruct i as [| i].
      * change (Z.of_nat 0) with 0%Z. rewrite zero_times_plus, Z.mul_0_l, Z.add_0_r by auto. now apply fl_eq.
      * rewrite fl_mul by (auto; lia). rewrite fl_add; auto; [| rewrite Z.add_comm; auto]. rewrite Z.add_comm. apply fl_eq; auto.
Qed.
Print Assumptions C110_floats_partial.
(** Not vacuous: the halves from -1 to 1. *)
Example C110_example : map (fun z => fl z (-1)) (evenly (-2) 1 5) = [bf "-1"; bf "-0.5"; bf "0"; bf "0.5"; bf "1"] /\
  isUniformlySpaced [bf "-1"; bf "-0.5"; bf "0"; bf "0.5"; bf "1"] = Ok true /\ isUniformlySpaced [bf "1"; bf "2"; bf "4"] = Ok false.
Proof. vm_compute. auto. Qed.

(** ** The request for FFI 2310 *)
(** For one variable of two dimensions the format is given exactly if its second
    axis passes the test. *)
Theorem C110_request : forall num (Num : NumOps num) (Ar : ArithOps num) (Dv : DivOps num) (E : env num) globals (v : xvar num) a b,
  e_uniform E = spaced -> v_axes v = [a; b] -> ax_nums b <> [] -> v_name v <> ax_name a -> v_name v <> ax_name b ->
  n_attr (v_info v) (lit "nasa_ames_var_number") = None ->
  (isUniformlySpaced (ax_nums b) <> Ok true -> convert E (Some 2310%Z) globals [v] = Err (ENappy E_RequestedFFI)) /\
  (isUniformlySpaced (ax_nums b) = Ok true -> exists an, analyseVariables E (Some 2310%Z) [v] = Ok (Some an) /\ a_ffi an = 2310%Z /\ a_main an = [v]).
Proof.
  intros num Num Ar Dv E globals v a b Eu Va Nb Na Nb' Nn.
  assert (Rk : rank v = 2%nat) by (unfold rank; rewrite Va; reflexivity).
  assert (An : analyseVariables E (Some 2310%Z) [v] =
    if spaced (ax_nums b) then Ok (Some (mkAn [v] [] [] [] 2 None 2310)) else Err (ENappy E_RequestedFFI)).
  { unfold analyseVariables. cbn [filter find_best]. rewrite Rk. cbn [Nat.eqb]. rewrite Rk. cbn [Nat.eqb]. rewrite Va.
    change (nth_res [a; b] 1) with (@Ok (axis num) b). cbn [bindR].
    destruct (ax_nums b) as [| x xs] eqn:Eb; [congruence |]. change (nth_res (x :: xs) 0) with (Ok x). cbn [bindR]. rewrite Eu.
    cbn [firstn skipn app forR bindR s_main s_aux s_limited s_unused s_nvpm]. unfold reorder. cbn [forR]. unfold reorder_step. rewrite Nn. cbn [bindR fst snd].
    replace (somes (repeat (@None (xvar num)) 1000)) with (@nil (xvar num)) by reflexivity. cbn [app length].
    destruct (spaced (x :: xs)); reflexivity. }
  split.
  - intros Q. assert (Sp : spaced (ax_nums b) = false).
    { unfold spaced. destruct (isUniformlySpaced (ax_nums b)) as [[|] |]; [congruence | reflexivity | reflexivity]. }
    rewrite Sp in An. unfold convert. cbn [mapR]. unfold convertSingleton. rewrite Rk. cbn [Nat.eqb bindR].
    unfold reorderVars. cbn [length Nat.ltb Nat.leb flat_map filter]. rewrite Va. cbn [map app].
    replace (mem_str (v_name v) [ax_name a; ax_name b]) with false.
    2: { symmetry. unfold mem_str. cbn [existsb]. rewrite !ConfigLemmas.str_eqb_diff by assumption. reflexivity. }
    cbn [negb bindR]. unfold collectNAContent. rewrite An. reflexivity.
  - intros Q. unfold spaced in An. rewrite Q in An. eexists. split; [exact An |]. split; reflexivity.
Qed.
Print Assumptions C110_request.

(** ** False with decimal fractions *)
Definition env_s : env b64 :=
  mkEnv spaced (lit "2024-01-01 00:00:00") [2024; 1; 1]%Z (lit "0.3") (bf "-9999999999") (bf "-9999.999") (bf "1") (fun _ _ => None).
Definition on_axis (l : list b64) : xvar b64 :=
  mkVar (mkNamed (lit "q") [] []) [axb (lit "t") [bf "1"; bf "2"]; axb (lit "z") l] (PList (map (fun _ => PList (map PNum l)) [0; 1]%nat)) None None.
(** 0, 0.1, 0.2, 0.3 is refused; 0, 0.1, 0.2, 0.30000000000000004, 0.4 is
    accepted though its differences are not all the same. *)
Theorem C110_refuted : exists l l' : list b64,
  l = [bf "0"; bf "0.1"; bf "0.2"; bf "0.3"] /\ convert env_s (Some 2310%Z) (gl (lit "Test")) [on_axis l] = Err (ENappy E_RequestedFFI) /\
  l' = [bf "0"; bf "0.1"; bf "0.2"; bf "0.30000000000000004"; bf "0.4"] /\ uniform (num_minus (bf "0.1") (bf "0")) l' = false /\
  (exists c d, convert env_s (Some 2310%Z) (gl (lit "Test")) [on_axis l'] = Ok (Some [c]) /\ c_na c = Some d /\ attr d kFFI = PInt 2310 /\ attr d kDX = PList [PNum (bf "0.1"); PNum (bf "0.1")]).
Proof.
  eexists _, _. split; [reflexivity |]. split; [vm_compute; reflexivity |]. split; [reflexivity |]. split; [vm_compute; reflexivity |].
  assert (T : match convert env_s (Some 2310%Z) (gl (lit "Test")) [on_axis [bf "0"; bf "0.1"; bf "0.2"; bf "0.30000000000000004"; bf "0.4"]] with
    | Ok (Some [c]) => match c_na c with Some d => attr d kFFI = PInt 2310 /\ attr d kDX = PList [PNum (bf "0.1"); PNum (bf "0.1")] | None => False end | _ => False end).
  { vm_compute. split; reflexivity. }
  destruct (convert env_s _ _ _) as [[[| c [|]] |] |]; try contradiction. destruct (c_na c) as [d |] eqn:Ec; [| contradiction]. destruct T as (T1 & T2).
  exists c, d. repeat split; assumption.
Qed.
Print Assumptions C110_refuted.
