(** Binary64 arithmetic is exact on multiples of one power of two that are small
    enough: facts on the functions of Coq.Floats.SpecFloat. *)
From Coq Require Import List NArith ZArith Bool Lia Floats.SpecFloat.
From Verif Require Import Spec.Binary64 Spec.LinspaceSpec.
Local Open Scope Z_scope.

Local Notation dg := Zdigits2.
Local Notation ex := (fexp b_prec b_emax).
Definition canon (s : bool) (o e : Z) : b64 :=
  S754_finite s (Z.to_pos (o * 2 ^ (e - ex (dg o + e)))) (ex (dg o + e)).

Lemma ex_eq n : ex n = Z.max (n - 53) (-1074). Proof. reflexivity. Qed.
Lemma dg_log z : 0 < z -> dg z = Z.log2 z + 1.
Proof.
  destruct z as [| p |]; try lia. intros _. cbn [Zdigits2].
  induction p as [p IH | p IH |]; cbn [digits2_pos]; [| | reflexivity].
  - rewrite Pos2Z.inj_succ, IH. change (Zpos p~1) with (2 * Zpos p + 1). rewrite Z.log2_succ_double by lia. lia.
  - rewrite Pos2Z.inj_succ, IH. change (Zpos p~0) with (2 * Zpos p). rewrite Z.log2_double by lia. lia.
Qed.
Lemma dg_shift z k : 0 < z -> 0 <= k -> dg (z * 2 ^ k) = dg z + k.
Proof.
  intros Hz Hk. assert (0 < 2 ^ k) by (apply Z.pow_pos_nonneg; lia).
  rewrite !dg_log by nia. rewrite Z.log2_mul_pow2 by lia. lia.
Qed.
Lemma dg_lt z : 0 < z -> z < 2 ^ 53 -> 1 <= dg z <= 53.
Proof.
  intros Hz L. rewrite dg_log by lia. pose proof (Z.log2_nonneg z).
  assert (Z.log2 z < 53) by (apply Z.log2_lt_pow2; lia). lia.
Qed.
Lemma dg_mul a b : 0 < a -> 0 < b -> dg a + dg b - 1 <= dg (a * b) <= dg a + dg b.
Proof.
  intros Ha Hb. rewrite !dg_log by nia.
  pose proof (Z.log2_mul_below a b ltac:(lia) ltac:(lia)). pose proof (Z.log2_mul_above a b ltac:(lia) ltac:(lia)). lia.
Qed.

Lemma iter_nat {A} (f : A -> A) p x : iter_pos f p x = Nat.iter (Pos.to_nat p) f x.
Proof.
  assert (Add : forall a b y, Nat.iter (a + b) f y = Nat.iter a f (Nat.iter b f y)).
  { induction a as [| a IH]; intros b y; [reflexivity |]. cbn [Nat.add Nat.iter nat_rect]. f_equal. apply IH. }
  revert x. induction p as [p IH | p IH |]; intros x; cbn [iter_pos].
  - rewrite !IH. replace (Pos.to_nat p~1) with (Pos.to_nat p + (Pos.to_nat p + 1))%nat by lia. rewrite !Add. reflexivity.
  - rewrite !IH. replace (Pos.to_nat p~0) with (Pos.to_nat p + Pos.to_nat p)%nat by lia. rewrite Add. reflexivity.
  - reflexivity.
Qed.
Lemma shr_even m : 0 < m -> shr_1 (Build_shr_record (2 * m) false false) = Build_shr_record m false false.
Proof. intros H. destruct m; try lia. reflexivity. Qed.
Lemma shr_exact m p : 0 < m -> iter_pos shr_1 p (Build_shr_record (m * 2 ^ Zpos p) false false) = Build_shr_record m false false.
Proof.
  intros H. rewrite iter_nat. rewrite <- (positive_nat_Z p).
  induction (Pos.to_nat p) as [| n IH]; [cbn [Nat.iter nat_rect]; f_equal; change (2 ^ Z.of_nat 0) with 1; lia |].
  assert (S1 : forall y, Nat.iter (S n) shr_1 y = Nat.iter n shr_1 (shr_1 y)).
  { clear. intros y. induction n as [| n IH]; [reflexivity |]. change (Nat.iter (S (S n)) shr_1 y) with (shr_1 (Nat.iter (S n) shr_1 y)). rewrite IH. reflexivity. }
  rewrite S1. etransitivity; [| exact IH]. f_equal.
  replace (m * 2 ^ Z.of_nat (S n)) with (2 * (m * 2 ^ Z.of_nat n)).
  2: { rewrite Nat2Z.inj_succ, Z.pow_succ_r by lia. lia. }
  apply shr_even. assert (0 < 2 ^ Z.of_nat n) by (apply Z.pow_pos_nonneg; lia). nia.
Qed.

Definition fits (o e : Z) : Prop := 0 < o < 2 ^ 53 /\ -1074 <= e <= 971.
Lemma fits_ex o e : fits o e -> ex (dg o + e) <= e /\ ex (dg o + e) <= 971 /\ -1074 <= ex (dg o + e).
Proof. intros ((A & B) & C). pose proof (dg_lt o A B). rewrite ex_eq. lia. Qed.
Lemma pow_pos k : 0 <= k -> 0 < 2 ^ k. Proof. intros. apply Z.pow_pos_nonneg; lia. Qed.

Lemma round_exact s o e T E : fits o e -> 0 <= T -> E = e - T -> E <= ex (dg o + e) ->
  binary_round_aux b_prec b_emax s (o * 2 ^ T) E loc_Exact = canon s o e.
Proof.
  intros F HT -> HE. pose proof (fits_ex o e F) as (B1 & B2 & B3). destruct F as ((A1 & A2) & A3).
  assert (S1 : shr_fexp b_prec b_emax (o * 2 ^ T) (e - T) loc_Exact =
    (Build_shr_record (o * 2 ^ (e - ex (dg o + e))) false false, ex (dg o + e))).
  { unfold shr_fexp. rewrite dg_shift by lia. replace (dg o + T + (e - T)) with (dg o + e) by lia.
    cbn [shr_record_of_loc]. destruct (ex (dg o + e) - (e - T)) as [| n | n] eqn:D; [| | lia]; cbn [shr].
    - f_equal; [f_equal; f_equal; f_equal; lia | lia].
    - replace (o * 2 ^ T) with ((o * 2 ^ (e - ex (dg o + e))) * 2 ^ Zpos n).
      2: { rewrite <- Z.mul_assoc, <- Z.pow_add_r by lia. f_equal. f_equal. lia. }
      pose proof (pow_pos (e - ex (dg o + e)) ltac:(lia)). rewrite shr_exact by nia. f_equal. lia. }
  unfold binary_round_aux. rewrite S1. cbn [shr_m loc_of_shr_record round_nearest_even].
  pose proof (pow_pos (e - ex (dg o + e)) ltac:(lia)).
  assert (S2 : shr_fexp b_prec b_emax (o * 2 ^ (e - ex (dg o + e))) (ex (dg o + e)) loc_Exact =
    (Build_shr_record (o * 2 ^ (e - ex (dg o + e))) false false, ex (dg o + e))).
  { unfold shr_fexp. rewrite dg_shift by lia. replace (dg o + (e - ex (dg o + e)) + ex (dg o + e)) with (dg o + e) by lia.
    rewrite Z.sub_diag. reflexivity. }
  rewrite S2. cbn [shr_m]. unfold canon.
  destruct (o * 2 ^ (e - ex (dg o + e))) as [| m | m] eqn:Em; [nia | | nia].
  change (b_emax - b_prec) with 971. rewrite (proj2 (Z.leb_le _ _) B2). reflexivity.
Qed.
Lemma shift_mul d p : Zpos (shift_pos d p) = Zpos p * 2 ^ Zpos d.
Proof. rewrite shift_pos_correct, Zpower_pos_nat, Zpower_nat_Z, positive_nat_Z. lia. Qed.
Lemma align_mul m e e' : e' <= e -> Zpos (fst (shl_align m e e')) = Zpos m * 2 ^ (e - e').
Proof.
  intros H. unfold shl_align. destruct (e' - e) as [| d | d] eqn:D; [| lia |]; cbn [fst].
  - replace (e - e') with 0 by lia. change (2 ^ 0) with 1. lia.
  - rewrite shift_mul. f_equal. f_equal. lia.
Qed.
Lemma pos_exact s m o e T E : fits o e -> 0 <= T -> E = e - T -> Zpos m = o * 2 ^ T -> binary_round b_prec b_emax s m E = canon s o e.
Proof.
  intros F HT -> Hm. pose proof (fits_ex o e F) as (B1 & B2 & B3). destruct F as ((A1 & A2) & A3).
  unfold binary_round. change (Zpos (digits2_pos m)) with (dg (Zpos m)). rewrite Hm, dg_shift by lia.
  replace (dg o + T + (e - T)) with (dg o + e) by lia.
  destruct (Z_le_gt_dec (e - T) (ex (dg o + e))) as [L | L].
  - unfold shl_align. destruct (ex (dg o + e) - (e - T)) as [| d | d] eqn:D; [| | lia].
    + rewrite Hm. apply round_exact; try lia. split; lia.
    + rewrite Hm. apply round_exact; try lia. split; lia.
  - pose proof (align_mul m (e - T) (ex (dg o + e)) ltac:(lia)) as Q.
    assert (Es : snd (shl_align m (e - T) (ex (dg o + e))) = ex (dg o + e)).
    { unfold shl_align. destruct (ex (dg o + e) - (e - T)) as [| d | d] eqn:D; [lia | lia |]. reflexivity. }
    destruct (shl_align m (e - T) (ex (dg o + e))) as [mz ez]. cbn [fst snd] in Q, Es. subst ez. rewrite Q, Hm.
    rewrite <- Z.mul_assoc, <- Z.pow_add_r by lia. apply round_exact; try lia. split; lia.
Qed.

(** ** Signed *)
Definition in_range (z : Z) : Prop := Z.abs z < 2 ^ 53.
Lemma norm_exact z e T E : in_range z -> -1074 <= e <= 971 -> 0 <= T -> E = e - T ->
  binary_normalize b_prec b_emax (z * 2 ^ T) E false = if z =? 0 then S754_zero false else canon (z <? 0) (Z.abs z) e.
Proof.
  unfold in_range. intros R He HT EE. destruct (Z.eqb_spec z 0) as [-> | Nz]; [reflexivity |].
  pose proof (pow_pos T HT). unfold binary_normalize. destruct (z * 2 ^ T) as [| m | m] eqn:Em; [nia | |].
  - rewrite (proj2 (Z.ltb_ge z 0)) by nia. rewrite Z.abs_eq by nia. apply (pos_exact _ _ z e T); [split; nia | lia | lia | lia].
  - rewrite (proj2 (Z.ltb_lt z 0)) by nia. rewrite Z.abs_neq by nia. apply (pos_exact _ _ (- z) e T); [split; nia | lia | lia | nia].
Qed.
Lemma fl_exact z e : in_range z -> -1074 <= e <= 971 -> fl z e = if z =? 0 then S754_zero false else canon (z <? 0) (Z.abs z) e.
Proof. intros R He. pose proof (norm_exact z e 0 e R He (Z.le_refl 0) ltac:(lia)) as Q. rewrite Z.pow_0_r, Z.mul_1_r in Q. exact Q. Qed.
Lemma fl_norm z e T E : in_range z -> -1074 <= e <= 971 -> 0 <= T -> E = e - T -> binary_normalize b_prec b_emax (z * 2 ^ T) E false = fl z e.
Proof. intros. rewrite fl_exact by auto. now apply norm_exact. Qed.
Lemma fl_zero e : fl 0 e = S754_zero false. Proof. reflexivity. Qed.
(** A number and the value of its parts. *)
Lemma fl_parts z e : in_range z -> -1074 <= e <= 971 -> z <> 0 -> exists m x,
  fl z e = S754_finite (z <? 0) m x /\ x <= e /\ Zpos m = Z.abs z * 2 ^ (e - x) /\ x = ex (dg (Z.abs z) + e).
Proof.
  intros R He Nz. rewrite fl_exact by auto. rewrite (proj2 (Z.eqb_neq z 0) Nz). unfold canon.
  assert (F : fits (Z.abs z) e) by (unfold in_range in R; split; lia). pose proof (fits_ex _ _ F) as (B1 & B2 & B3).
  eexists _, _. split; [reflexivity |]. split; [exact B1 |]. split; [| reflexivity].
  pose proof (pow_pos (e - ex (dg (Z.abs z) + e)) ltac:(lia)). rewrite Z2Pos.id by nia. reflexivity.
Qed.
Lemma cond_abs z : cond_Zopp (z <? 0) (Z.abs z) = z.
Proof. destruct (Z.ltb_spec z 0); cbn [cond_Zopp]; lia. Qed.
Lemma cond_mul b x y : cond_Zopp b (x * y) = cond_Zopp b x * y.
Proof. destruct b; cbn [cond_Zopp]; lia. Qed.

Lemma fl_add x y e : in_range x -> in_range y -> in_range (x + y) -> -1074 <= e <= 971 ->
  SFadd b_prec b_emax (fl x e) (fl y e) = fl (x + y) e.
Proof.
  intros Rx Ry Rz He.
  destruct (Z.eq_dec x 0) as [-> | Nx].
  { rewrite fl_zero. destruct (Z.eq_dec y 0) as [-> | Ny]; [reflexivity |].
    destruct (fl_parts y e Ry He Ny) as (m & q & Q & _). rewrite Z.add_0_l, Q. reflexivity. }
  destruct (fl_parts x e Rx He Nx) as (m & q & Q & Q1 & Q2 & _).
  destruct (Z.eq_dec y 0) as [-> | Ny]; [rewrite fl_zero, Z.add_0_r, Q; reflexivity |].
  destruct (fl_parts y e Ry He Ny) as (n & r & S & S1 & S2 & _). rewrite Q, S. cbn [SFadd].
  rewrite !align_mul by lia. rewrite Q2, S2, <- !Z.mul_assoc, <- !Z.pow_add_r by lia.
  rewrite !cond_mul, !cond_abs.
  replace (e - q + (q - Z.min q r)) with (e - Z.min q r) by lia. replace (e - r + (r - Z.min q r)) with (e - Z.min q r) by lia.
  rewrite <- Z.mul_add_distr_r. apply fl_norm; auto; lia.
Qed.
Lemma fl_sub x y e : in_range x -> in_range y -> in_range (x - y) -> -1074 <= e <= 971 ->
  SFsub b_prec b_emax (fl x e) (fl y e) = fl (x - y) e.
Proof.
  intros Rx Ry Rz He.
  destruct (Z.eq_dec x 0) as [-> | Nx].
  { rewrite fl_zero. destruct (Z.eq_dec y 0) as [-> | Ny]; [reflexivity |].
    rewrite !fl_exact by auto. rewrite (proj2 (Z.eqb_neq y 0) Ny), (proj2 (Z.eqb_neq (0 - y) 0)) by lia.
    replace (Z.abs (0 - y)) with (Z.abs y) by lia. unfold canon. cbn [SFsub]. f_equal.
    destruct (Z.ltb_spec y 0), (Z.ltb_spec (0 - y) 0); try lia; reflexivity. }
  destruct (fl_parts x e Rx He Nx) as (m & q & Q & Q1 & Q2 & _).
  destruct (Z.eq_dec y 0) as [-> | Ny]; [rewrite fl_zero, Z.sub_0_r, Q; reflexivity |].
  destruct (fl_parts y e Ry He Ny) as (n & r & S & S1 & S2 & _). rewrite Q, S. cbn [SFsub].
  rewrite !align_mul by lia. rewrite Q2, S2, <- !Z.mul_assoc, <- !Z.pow_add_r by lia.
  rewrite !cond_mul, !cond_abs.
  replace (e - q + (q - Z.min q r)) with (e - Z.min q r) by lia. replace (e - r + (r - Z.min q r)) with (e - Z.min q r) by lia.
  rewrite <- Z.mul_sub_distr_r. apply fl_norm; auto; lia.
Qed.
Lemma sign_mul x y : x <> 0 -> y <> 0 -> xorb (x <? 0) (y <? 0) = (x * y <? 0).
Proof. intros. destruct (Z.ltb_spec x 0), (Z.ltb_spec y 0), (Z.ltb_spec (x * y) 0); cbn [xorb]; try reflexivity; nia. Qed.
Lemma fl_mul i s e : i <> 0 -> s <> 0 -> in_range i -> in_range s -> in_range (i * s) -> -1074 <= e <= 971 ->
  SFmul b_prec b_emax (fl i 0) (fl s e) = fl (i * s) e.
Proof.
  intros Ni Ns Ri Rs Rz He.
  destruct (fl_parts i 0 Ri ltac:(lia) Ni) as (m & q & Q & Q1 & Q2 & Q3). destruct (fl_parts s e Rs He Ns) as (n & r & S & S1 & S2 & S3).
  rewrite Q, S. cbn [SFmul]. rewrite (fl_exact (i * s)) by auto. rewrite (proj2 (Z.eqb_neq (i * s) 0)) by nia.
  rewrite sign_mul by auto. rewrite Pos2Z.inj_mul, Q2, S2.
  replace (Z.abs i * 2 ^ (0 - q) * (Z.abs s * 2 ^ (e - r))) with (Z.abs (i * s) * 2 ^ ((0 - q) + (e - r))).
  2: { rewrite Z.pow_add_r by lia. rewrite Z.abs_mul. ring. }
  apply round_exact; [unfold in_range in *; split; nia | lia | lia |].
  pose proof (dg_lt (Z.abs i) ltac:(lia) Ri). pose proof (dg_lt (Z.abs s) ltac:(lia) Rs).
  pose proof (dg_mul (Z.abs i) (Z.abs s) ltac:(lia) ltac:(lia)). rewrite Z.abs_mul. rewrite !ex_eq in *. lia.
Qed.
Lemma fl_div n s e : 0 < n -> s <> 0 -> in_range n -> in_range s -> in_range (n * s) -> -1074 <= e <= 971 ->
  SFdiv b_prec b_emax (fl (n * s) e) (fl n 0) = fl s e.
Proof.
  intros Nn Ns Rn Rs Rz He.
  destruct (fl_parts n 0 Rn ltac:(lia) ltac:(lia)) as (m2 & e2 & Q & Q1 & Q2 & Q3).
  destruct (fl_parts (n * s) e Rz He ltac:(nia)) as (m1 & e1 & S & S1 & S2 & S3).
  rewrite Q, S. cbn [SFdiv]. rewrite (fl_exact s) by auto. rewrite (proj2 (Z.eqb_neq s 0)) by auto.
  rewrite sign_mul by nia.
  replace (n * s * n <? 0) with (s <? 0) by (destruct (Z.ltb_spec s 0), (Z.ltb_spec (n * s * n) 0); nia).
  pose proof (dg_lt (Z.abs n) ltac:(lia) Rn) as Dn. pose proof (dg_lt (Z.abs s) ltac:(lia) Rs) as Ds.
  pose proof (dg_mul (Z.abs n) (Z.abs s) ltac:(lia) ltac:(lia)) as Dm. rewrite <- Z.abs_mul in Dm.
  pose proof (dg_lt (Z.abs (n * s)) ltac:(nia) Rz) as Dz.
  unfold SFdiv_core_binary. rewrite S2, Q2, !dg_shift by lia.
  replace (dg (Z.abs (n * s)) + (e - e1) + e1 - (dg (Z.abs n) + (0 - e2) + e2)) with (dg (Z.abs (n * s)) - dg (Z.abs n) + e) by lia.
  set (e' := Z.min (ex (dg (Z.abs (n * s)) - dg (Z.abs n) + e)) (e1 - e2)).
  assert (Le : e' <= ex (dg (Z.abs s) + e)) by (unfold e'; rewrite !ex_eq; lia).
  assert (F : fits (Z.abs s) e) by (unfold in_range in Rs; split; lia). pose proof (fits_ex _ _ F) as (B1 & B2 & B3).
  assert (Hs : 0 <= e1 - e2 - e') by (unfold e'; lia).
  assert (Em : match e1 - e2 - e' with Zpos _ => Z.shiftl (Z.abs (n * s) * 2 ^ (e - e1)) (e1 - e2 - e') | Z0 => Z.abs (n * s) * 2 ^ (e - e1) | Zneg _ => 0 end
    = (Z.abs s * 2 ^ (e - e')) * (Z.abs n * 2 ^ (0 - e2))).
  { replace (Z.abs s * 2 ^ (e - e') * (Z.abs n * 2 ^ (0 - e2))) with (Z.abs (n * s) * 2 ^ ((e - e') + (0 - e2))).
    2: { rewrite Z.pow_add_r by lia. rewrite Z.abs_mul. ring. }
    destruct (e1 - e2 - e') as [| k | k] eqn:K; [| | lia].
    - f_equal. f_equal. lia.
    - rewrite Z.shiftl_mul_pow2 by lia. rewrite <- Z.mul_assoc, <- Z.pow_add_r by lia. f_equal. f_equal. lia. }
  rewrite Em. pose proof (pow_pos (0 - e2) ltac:(lia)) as P2.
  set (den := Z.abs n * 2 ^ (0 - e2)) in *. assert (Dpos : 0 < den) by (unfold den; nia).
  pose proof (Z_div_exact_full_2 (Z.abs s * 2 ^ (e - e') * den) den ltac:(lia) (Z_mod_mult _ _)) as _.
  pose proof (Z_div_mult (Z.abs s * 2 ^ (e - e')) den ltac:(lia)) as D1. pose proof (Z_mod_mult (Z.abs s * 2 ^ (e - e')) den) as D2.
  unfold Z.div in D1. unfold Z.modulo in D2.
  destruct (Z.div_eucl (Z.abs s * 2 ^ (e - e') * den) den) as [qq rr]. subst qq rr.
  replace (new_location den 0) with loc_Exact by (unfold new_location, new_location_even, new_location_odd; destruct (Z.even den); reflexivity).
  apply round_exact; [exact F | lia | lia | exact Le].
Qed.
Lemma fl_same z e : SFeqb (fl z e) (fl z e) = true \/ fl z e = S754_nan.
Proof.
  destruct (fl z e) as [s | s | | s m x]; auto; left; unfold SFeqb; cbn [SFcompare]; try (destruct s; reflexivity).
  rewrite Z.compare_refl, Pos.compare_cont_refl. destruct s; reflexivity.
Qed.
