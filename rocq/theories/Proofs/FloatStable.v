(** Printing ten digits, reading, and printing again. *)
From Coq Require Import List NArith ZArith Bool Lia Floats.SpecFloat.
From Verif Require Import Py.Str Spec.Binary64 Spec.LinspaceSpec Proofs.FloatExact Proofs.FloatRound Proofs.FloatDec Proofs.FloatValid Proofs.FloatPrint.
Import ListNotations.
Local Open Scope Z_scope.
Local Notation dg := Zdigits2.
Local Notation ex := (fexp b_prec b_emax).

(** 10^z and 2^z, both multiplied by 10^400 * 2^1100. *)
Definition T (z : Z) : Z := 10 ^ (z + 400) * 2 ^ 1100.
Definition B (z : Z) : Z := 2 ^ (z + 1100) * 10 ^ 400.
Lemma T_pos z : -400 <= z -> 0 < T z.
Proof. intros. unfold T. pose proof (Z.pow_pos_nonneg 10 (z + 400) ltac:(lia) ltac:(lia)). apply Z.mul_pos_pos; [assumption | reflexivity]. Qed.
Lemma B_pos z : -1100 <= z -> 0 < B z.
Proof. intros. unfold B. pose proof (Z.pow_pos_nonneg 2 (z + 1100) ltac:(lia) ltac:(lia)). apply Z.mul_pos_pos; [assumption | reflexivity]. Qed.
Lemma T_step a b : -400 <= a -> a <= b -> T b = 10 ^ (b - a) * T a.
Proof. intros Ha L. unfold T. rewrite Z.mul_assoc, <- Z.pow_add_r by lia. do 2 f_equal. lia. Qed.
Lemma B_step a b : -1100 <= a -> a <= b -> B b = 2 ^ (b - a) * B a.
Proof. intros Ha L. unfold B. rewrite Z.mul_assoc, <- Z.pow_add_r by lia. do 2 f_equal. lia. Qed.
Lemma T_mono a b : -400 <= a -> a <= b -> T a <= T b.
Proof. intros Ha L. rewrite (T_step a b Ha L). pose proof (T_pos a Ha). pose proof (Z.pow_pos_nonneg 10 (b - a) ltac:(lia) ltac:(lia)). nia. Qed.
Lemma B_mono a b : -1100 <= a -> a <= b -> B a <= B b.
Proof. intros Ha L. rewrite (B_step a b Ha L). pose proof (B_pos a Ha). pose proof (Z.pow_pos_nonneg 2 (b - a) ltac:(lia) ltac:(lia)). nia. Qed.
Lemma T_pw z : -400 <= z -> T z * pw 10 (- z) = pw 10 z * T 0.
Proof.
  intros H. unfold T, pw. rewrite (Z.mul_comm (10 ^ (z + 400))), <- Z.mul_assoc, <- Z.pow_add_r by lia.
  rewrite Z.mul_assoc, <- Z.pow_add_r by lia. rewrite Z.mul_comm. do 2 f_equal. lia.
Qed.
Lemma B_T : B 0 = T 0. Proof. unfold B, T. apply Z.mul_comm. Qed.
Lemma B_pw z : -1100 <= z -> B z * pw 2 (- z) = pw 2 z * T 0.
Proof.
  intros H. rewrite <- B_T. unfold B, pw. rewrite (Z.mul_comm (2 ^ (z + 1100))), <- Z.mul_assoc, <- Z.pow_add_r by lia.
  rewrite Z.mul_assoc, <- Z.pow_add_r by lia. rewrite Z.mul_comm. do 2 f_equal. lia.
Qed.
Lemma T_0 : 0 < T 0. Proof. apply T_pos. lia. Qed.
Lemma compare_1 : T (-330) <= B (-1074). Proof. vm_compute. discriminate. Qed.
Lemma compare_2 : B 1024 <= T 309. Proof. vm_compute. discriminate. Qed.
Lemma compare_3 : B (-1074) < T (-323). Proof. vm_compute. reflexivity. Qed.
Lemma compare_4 : T (-324) < B (-1074). Proof. vm_compute. reflexivity. Qed.
Lemma compare_5 : T (-313) < B (-1022). Proof. vm_compute. reflexivity. Qed.
Global Opaque T B.

Lemma ge_pow_mono n d k k' : 0 < n -> 0 < d -> k <= k' -> ge_pow n d k' = true -> ge_pow n d k = true.
Proof.
  intros Hn Hd L H. apply ge_pow_iff in H. apply ge_pow_iff. pose proof (pw_shift 10 k k' ltac:(lia) L) as S.
  pose proof (Z.pow_pos_nonneg 10 (k' - k) ltac:(lia) ltac:(lia)) as P. pose proof (pw_pos 10 k ltac:(lia)). pose proof (pw_pos 10 k' ltac:(lia)). pose proof (pw_pos 10 (- k) ltac:(lia)). pose proof (pw_pos 10 (- k') ltac:(lia)).
  apply (Z.mul_le_mono_pos_r _ _ (pw 10 (- k'))); [assumption |].
  transitivity (d * (10 ^ (k' - k) * (pw 10 k * pw 10 (- k')))).
  - assert (0 < pw 10 k * pw 10 (- k')) by nia. assert (0 < d * (pw 10 k * pw 10 (- k'))) by nia. nia.
  - rewrite <- S. nia.
Qed.
Lemma round_to_eq p n d : round_to p n d =
  (let s := dec_exp n d - p + 1 in let q := half_even (n * pw 10 (- s)) (d * pw 10 s) in if q =? 10 ^ p then (10 ^ (p - 1), dec_exp n d + 1) else (q, dec_exp n d)).
Proof.
  unfold round_to. cbv zeta. set (s := dec_exp n d - p + 1).
  assert (Eq : (if 0 <=? s then half_even n (d * 10 ^ s) else half_even (n * 10 ^ (- s)) d) = half_even (n * pw 10 (- s)) (d * pw 10 s)).
  { destruct (Z.leb_spec 0 s).
    - rewrite (pw_nonneg 10 s), (pw_neg 10 (- s)) by lia. f_equal. lia.
    - rewrite (pw_neg 10 s), (pw_nonneg 10 (- s)) by lia. f_equal. lia. }
  rewrite Eq. reflexivity.
Qed.

(** ** A number m * 2^e in the scale *)
Section Number.
Variables (m : positive) (e : Z).
Hypothesis Bd : bounded b_prec b_emax m e = true.
Let n := Zpos m * pw 2 e.
Let d := pw 2 (- e).
Let X := Zpos m * B e.
Lemma e_range : -1074 <= e <= 971. Proof. pose proof (bounded_inv m e Bd). tauto. Qed.
Lemma n_scale : T 0 * n = d * X.
Proof. unfold n, d, X. pose proof (B_pw e ltac:(pose proof e_range; lia)) as P. transitivity (Zpos m * (pw 2 e * T 0)); [ring |]. rewrite <- P. ring. Qed.
Lemma X_pos : 0 < X. Proof. unfold X. pose proof (B_pos e ltac:(pose proof e_range; lia)). lia. Qed.
Lemma ge_scale k : -400 <= k -> (ge_pow n d k = true <-> T k <= X).
Proof.
  intros Hk. rewrite ge_pow_iff. pose proof (T_pw k Hk) as P. pose proof T_0 as P0. pose proof (pw_pos 10 (- k) ltac:(lia)) as P1. pose proof (d_pos m e) as Hd. fold d in Hd.
  assert (E1 : T 0 * (d * pw 10 k) = d * pw 10 (- k) * T k) by (transitivity (d * (pw 10 k * T 0)); [ring |]; rewrite <- P; ring).
  assert (E2 : T 0 * (n * pw 10 (- k)) = d * pw 10 (- k) * X) by (transitivity (T 0 * n * pw 10 (- k)); [ring |]; rewrite n_scale; ring).
  assert (P2 : 0 < d * pw 10 (- k)) by (apply Z.mul_pos_pos; assumption).
  rewrite (Z.mul_le_mono_pos_l _ _ (T 0) P0), E1, E2, <- Z.mul_le_mono_pos_l by assumption. reflexivity.
Qed.
Lemma dec_exp_range : -330 <= dec_exp n d <= 308.
Proof.
  pose proof (dec_exp_ok m e Bd) as (G1 & G2). cbv zeta in *. fold n d in G1, G2. pose proof (n_pos m e) as Hn. pose proof (d_pos m e) as Hd. cbv zeta in *. fold n in Hn. fold d in Hd.
  pose proof (bounded_inv m e Bd) as (R1 & R2 & _). split.
  - destruct (Z_le_gt_dec (-330) (dec_exp n d)) as [L | L]; [exact L | exfalso]. assert (ge_pow n d (-330) = true).
    { apply ge_scale; [lia |]. pose proof compare_1. pose proof (B_mono (-1074) e ltac:(lia) ltac:(lia)). pose proof (B_pos e ltac:(lia)). unfold X. nia. }
    rewrite (ge_pow_mono n d (dec_exp n d + 1) (-330)) in G2; [discriminate | assumption | assumption | lia | assumption].
  - destruct (Z_le_gt_dec (dec_exp n d) 308) as [L | L]; [exact L | exfalso]. apply (ge_pow_mono n d 309) in G1; [| assumption | assumption | lia].
    apply ge_scale in G1; [| lia]. pose proof compare_2. pose proof (B_step 971 1024 ltac:(lia) ltac:(lia)) as S. pose proof (B_mono e 971 ltac:(lia) ltac:(lia)). pose proof (B_pos e ltac:(lia)).
    change (1024 - 971) with 53 in S. unfold X in G1. nia.
Qed.
Lemma exp_is k : -400 <= k -> T k <= X -> X < T (k + 1) -> dec_exp n d = k.
Proof.
  intros Hk L1 L2. pose proof (dec_exp_ok m e Bd) as (G1 & G2). cbv zeta in *. fold n d in G1, G2. pose proof (n_pos m e) as Hn. pose proof (d_pos m e) as Hd. cbv zeta in *. fold n in Hn. fold d in Hd.
  apply Z.le_antisymm.
  - destruct (Z_le_gt_dec (dec_exp n d) k) as [L | L]; [exact L | exfalso]. apply (ge_pow_mono n d (k + 1)) in G1; [| assumption | assumption | lia]. apply ge_scale in G1; lia.
  - destruct (Z_le_gt_dec k (dec_exp n d)) as [L | L]; [exact L | exfalso]. apply (ge_scale k Hk) in L1. rewrite (ge_pow_mono n d (dec_exp n d + 1) k) in G2; [discriminate | assumption | assumption | lia | assumption].
Qed.
Lemma half_scale s : -400 <= s -> 2 * Z.abs (half_even (n * pw 10 (- s)) (d * pw 10 s) * T s - X) <= T s.
Proof.
  intros Hs. pose proof (d_pos m e) as Hd. fold d in Hd. pose proof (pw_pos 10 s ltac:(lia)) as P1. pose proof (pw_pos 10 (- s) ltac:(lia)) as P2. pose proof T_0 as P0.
  assert (Hb : 0 < d * pw 10 s) by (apply Z.mul_pos_pos; assumption). pose proof (half_even_near (n * pw 10 (- s)) (d * pw 10 s) Hb) as N.
  set (q := half_even _ _) in *. pose proof (T_pw s Hs) as P.
  assert (E1 : T 0 * (d * pw 10 s) = d * pw 10 (- s) * T s) by (transitivity (d * (pw 10 s * T 0)); [ring |]; rewrite <- P; ring).
  assert (E2 : T 0 * (n * pw 10 (- s)) = d * pw 10 (- s) * X) by (transitivity (T 0 * n * pw 10 (- s)); [ring |]; rewrite n_scale; ring).
  assert (P3 : 0 < d * pw 10 (- s)) by (apply Z.mul_pos_pos; assumption).
  apply (Z.mul_le_mono_pos_l _ _ (d * pw 10 (- s)) P3). rewrite <- E1.
  transitivity (T 0 * (2 * Z.abs (q * (d * pw 10 s) - n * pw 10 (- s)))); [| apply Z.mul_le_mono_nonneg_l; lia].
  apply Z.eq_le_incl. replace (T 0 * (2 * Z.abs (q * (d * pw 10 s) - n * pw 10 (- s)))) with (2 * Z.abs (T 0 * (q * (d * pw 10 s) - n * pw 10 (- s)))) by (rewrite Z.abs_mul, (Z.abs_eq (T 0)) by lia; ring).
  replace (d * pw 10 (- s) * (2 * Z.abs (q * T s - X))) with (2 * Z.abs (d * pw 10 (- s) * (q * T s - X))) by (rewrite Z.abs_mul, (Z.abs_eq (d * pw 10 (- s))) by lia; ring).
  do 2 f_equal. transitivity (q * (d * pw 10 (- s) * T s) - d * pw 10 (- s) * X); [ring |]. rewrite <- E1, <- E2. ring.
Qed.
(** The digits and their value. *)
Lemma digits_scale Q K : round_to 10 n d = (Q, K) -> exists s, -339 <= s /\ s <= K - 9 <= s + 1 /\ K <= 309 /\ 10 ^ 9 <= Q < 10 ^ 10 /\ 2 * Z.abs (Q * T (K - 9) - X) <= T s.
Proof.
  intros E. pose proof dec_exp_range as R. exists (dec_exp n d - 9). 
  pose proof (round_digits 10 m e ltac:(lia) Bd) as Dg. rewrite frac_pw in Dg. fold n d in Dg. rewrite E in Dg. change (10 - 1) with 9 in Dg.
  rewrite round_to_eq in E. cbv zeta in E. replace (dec_exp n d - 10 + 1) with (dec_exp n d - 9) in E by lia. set (s := dec_exp n d - 9) in *.
  pose proof (half_scale s ltac:(unfold s; lia)) as H. set (q := half_even _ _) in *.
  destruct (Z.eqb_spec q (10 ^ 10)) as [Eq | Nq].
  - pose proof (f_equal fst E) as E1. pose proof (f_equal snd E) as E2. cbn [fst snd] in E1, E2. replace (K - 9) with (s + 1) by (unfold s; lia).
    split; [unfold s; lia |]. split; [lia |]. split; [lia |]. split; [exact Dg |]. pose proof (T_step s (s + 1) ltac:(unfold s; lia) ltac:(lia)) as S. replace (s + 1 - s) with 1 in S by lia. change (10 ^ 1) with 10 in S.
    rewrite S, <- E1. replace (10 ^ (10 - 1) * (10 * T s)) with (10 ^ 10 * T s) by (change (10 ^ 10) with (10 ^ (10 - 1) * 10); ring). rewrite <- Eq. exact H.
  - pose proof (f_equal fst E) as E1. pose proof (f_equal snd E) as E2. cbn [fst snd] in E1, E2. replace (K - 9) with s by (unfold s; lia).
    split; [unfold s; lia |]. split; [lia |]. split; [lia |]. split; [exact Dg |]. rewrite <- E1. exact H.
Qed.
(** From the value to the digits. *)
Lemma digits_from Q t : -400 <= t -> 10 ^ 9 <= Q < 10 ^ 10 -> 2 * Z.abs (Q * T t - X) < T t -> T (t + 9) <= X -> round_to 10 n d = (Q, t + 9).
Proof.
  intros Ht HQ N L. pose proof (T_pos t Ht) as P. pose proof (T_step t (t + 9 + 1) Ht ltac:(lia)) as S. replace (t + 9 + 1 - t) with 10 in S by lia.
  assert (Ek : dec_exp n d = t + 9) by (apply exp_is; [lia | exact L | rewrite S; nia]).
  rewrite round_to_eq. cbv zeta. rewrite Ek. replace (t + 9 - 10 + 1) with t by lia. pose proof (half_scale t Ht) as H. set (q := half_even _ _) in *.
  assert (q = Q) as -> by nia. destruct (Z.eqb_spec Q (10 ^ 10)); [lia | reflexivity].
Qed.
Lemma digits_below t : -400 <= t -> 2 * Z.abs (10 ^ 10 * T t - X) < T t -> X < T (t + 10) -> round_to 10 n d = (10 ^ 9, t + 10).
Proof.
  intros Ht N L. pose proof (T_pos t Ht) as P. pose proof (T_step t (t + 9) Ht ltac:(lia)) as S. replace (t + 9 - t) with 9 in S by lia.
  change (10 ^ 9) with 1000000000 in *. change (10 ^ 10) with 10000000000 in *.
  assert (Ek : dec_exp n d = t + 9) by (apply exp_is; [lia | rewrite S; lia | replace (t + 9 + 1) with (t + 10) by lia; exact L]).
  rewrite round_to_eq. cbv zeta. rewrite Ek. replace (t + 9 - 10 + 1) with t by lia. pose proof (half_scale t Ht) as H. set (q := half_even _ _) in *.
  assert (q = 10000000000) as -> by nia. replace (t + 9 + 1) with (t + 10) by lia. reflexivity.
Qed.
End Number.

(** ** Reading a decimal number in the scale *)
Section Read.
Variables (q : positive) (t g : Z).
Hypothesis Ht : -400 <= t.
Let N := Zpos q * pw 10 t.
Let D := pw 10 (- t).
Let V := Zpos q * T t.
Hypothesis G : is_mag N D g.
Lemma D_pos : 0 < D. Proof. apply pw_pos. lia. Qed.
Lemma N_pos : 0 < N. Proof. unfold N. pose proof (pw_pos 10 t ltac:(lia)). lia. Qed.
Lemma N_scale : T 0 * N = D * V.
Proof. unfold N, D, V. pose proof (T_pw t Ht) as P. transitivity (Zpos q * (pw 10 t * T 0)); [ring |]. rewrite <- P. ring. Qed.
Lemma mag_scale : -1099 <= g -> B (g - 1) <= V.
Proof.
  intros Hg. destruct G as (G1 & _). pose proof (B_pw (g - 1) ltac:(lia)) as P. replace (- (g - 1)) with (1 - g) in P by lia. pose proof D_pos. pose proof T_0 as P0. pose proof (pw_pos 2 (1 - g) ltac:(lia)).
  apply (Z.mul_le_mono_pos_l _ _ (D * pw 2 (1 - g))); [apply Z.mul_pos_pos; assumption |].
  transitivity (T 0 * (pw 2 (g - 1) * D)); [apply Z.eq_le_incl; transitivity (D * (B (g - 1) * pw 2 (1 - g))); [ring |]; rewrite P; ring |].
  transitivity (T 0 * (N * pw 2 (1 - g))); [apply Z.mul_le_mono_nonneg_l; lia |]. apply Z.eq_le_incl. transitivity (T 0 * N * pw 2 (1 - g)); [ring |]. rewrite N_scale. ring.
Qed.
Lemma dist_scale M E c c' : -1100 <= E ->
  (c * Z.abs (num_at N E - M * den_at D E) <= c' * den_at D E <-> c * Z.abs (V - M * B E) <= c' * B E).
Proof.
  intros HE. pose proof (B_pw E HE) as P. pose proof D_pos as Hd. pose proof T_0 as P0. pose proof (pw_pos 2 (- E) ltac:(lia)) as P1.
  assert (P2 : 0 < D * pw 2 (- E)) by (apply Z.mul_pos_pos; assumption).
  assert (E1 : T 0 * den_at D E = D * pw 2 (- E) * B E) by (unfold den_at; transitivity (D * (pw 2 E * T 0)); [ring |]; rewrite <- P; ring).
  assert (E2 : T 0 * num_at N E = D * pw 2 (- E) * V) by (unfold num_at; transitivity (T 0 * N * pw 2 (- E)); [ring |]; rewrite N_scale; ring).
  assert (E3 : T 0 * Z.abs (num_at N E - M * den_at D E) = D * pw 2 (- E) * Z.abs (V - M * B E)).
  { rewrite <- (Z.abs_eq (T 0)) at 1 by lia. rewrite <- (Z.abs_eq (D * pw 2 (- E))) at 1 by lia. rewrite <- !Z.abs_mul. f_equal.
    transitivity (T 0 * num_at N E - M * (T 0 * den_at D E)); [ring |]. rewrite E1, E2. ring. }
  rewrite (Z.mul_le_mono_pos_l _ _ (T 0) P0). rewrite (Z.mul_le_mono_pos_l (c * Z.abs (V - M * B E)) _ (D * pw 2 (- E)) P2).
  replace (T 0 * (c * Z.abs (num_at N E - M * den_at D E))) with (c * (T 0 * Z.abs (num_at N E - M * den_at D E))) by ring. rewrite E3.
  replace (T 0 * (c' * den_at D E)) with (c' * (T 0 * den_at D E)) by ring. rewrite E1.
  replace (c * (D * pw 2 (- E) * Z.abs (V - M * B E))) with (D * pw 2 (- E) * (c * Z.abs (V - M * B E))) by ring.
  replace (c' * (D * pw 2 (- E) * B E)) with (D * pw 2 (- E) * (c' * B E)) by ring. reflexivity.
Qed.
End Read.

(** The power of ten where the spacing of floats is too wide for the argument. *)
Definition power_ok (K : Z) : bool :=
  match b_of_dec false (10 ^ 9) (K - 9) with
  | S754_finite _ m e => let (n, d) := frac_of m e in let (q, k) := round_to 10 n d in (q =? 10 ^ 9) && (k =? K)
  | S754_infinity _ => true
  | _ => false
  end.
Lemma power_least : power_ok (-314) = true.
Proof. vm_compute. reflexivity. Qed.

(** The float nearest to ten digits has these ten digits, or is the number the
    digits come from. *)
Theorem digits_stable s m e Q K : bounded b_prec b_emax m e = true -> round_to 10 (Zpos m * pw 2 e) (pw 2 (- e)) = (Q, K) ->
  (exists s', b_of_dec s Q (K - 9) = S754_infinity s') \/
  (exists m' e', b_of_dec s Q (K - 9) = S754_finite s m' e' /\ round_to 10 (Zpos m' * pw 2 e') (pw 2 (- e')) = (Q, K)).
Proof.
  intros Bd E. destruct (digits_scale m e Bd Q K E) as (s0 & S0 & S1 & SK & HQ & HX). set (t := K - 9) in *. set (X := Zpos m * B e) in *.
  assert (Ht : -400 <= t) by lia. pose proof (bounded_inv m e Bd) as (R1 & R2 & R3).
  assert (Qp : exists q, Q = Zpos q) by (destruct Q; try lia; eauto). destruct Qp as (q & ->).
  pose proof (pw_pos 10 t ltac:(lia)). pose proof (pw_pos 10 (- t) ltac:(lia)) as Dn.
  destruct (mag_exists (Zpos q * pw 10 t) (pw 10 (- t)) ltac:(nia) ltac:(lia)) as (g & G).
  pose proof (of_dec_rnd s q t g G) as Rd.
  pose proof (T_pos t Ht) as Pt. pose proof (T_pos s0 ltac:(lia)) as Ps. pose proof (T_mono s0 t ltac:(lia) ltac:(lia)) as Mst.
  assert (Nn : 0 < Zpos q * pw 10 t) by nia.
  destruct (Z_le_gt_dec t (-324)) as [Lt | Lt].
  - (* far below: the number itself *)
    right. exists m, e. split; [| exact E]. rewrite Rd. apply nearest; [exact Nn | assumption | exact G | exact Bd |].
    pose proof (T_mono t (-324) Ht Lt) as M1. pose proof compare_4 as C4. pose proof compare_5 as C5. pose proof (B_mono (-1074) e ltac:(lia) ltac:(lia)) as M2.
    pose proof (T_step (-324) (-313) ltac:(lia) ltac:(lia)) as S11. replace (-313 - -324) with 11 in S11 by lia.
    destruct (Z.eqb_spec (Zpos m) (2 ^ 52)) as [Em | Em].
    + exfalso. pose proof (B_step (-1074) (-1022) ltac:(lia) ltac:(lia)) as S2. replace (-1022 - -1074) with 52 in S2 by lia. unfold X in HX. rewrite Em in HX. 
      change (2 ^ 52) with 4503599627370496 in *. change (10 ^ 11) with 100000000000 in *. change (10 ^ 10) with 10000000000 in *. nia.
    + destruct (Z_lt_le_dec (4 * Z.abs (num_at (Zpos q * pw 10 t) e - Zpos m * den_at (pw 10 (- t)) e)) (2 * den_at (pw 10 (- t)) e)) as [C | C]; [exact C | exfalso].
      assert (C' : (- 4) * Z.abs (num_at (Zpos q * pw 10 t) e - Zpos m * den_at (pw 10 (- t)) e) <= (- 2) * den_at (pw 10 (- t)) e) by lia.
      apply (dist_scale q t Ht) in C'; [| lia]. fold X in C'. lia.
  - pose proof (whole_bounds _ _ g Nn Dn G) as (_ & _ & Wd). set (E0 := ex g) in *.
    assert (HE0 : -1074 <= E0) by (unfold E0; rewrite ex_eq; lia).
    assert (Wd' : 2 * Z.abs (Zpos q * T t - whole_at (Zpos q * pw 10 t) (pw 10 (- t)) g * B E0) <= B E0).
    { pose proof (proj1 (dist_scale q t Ht (whole_at (Zpos q * pw 10 t) (pw 10 (- t)) g) E0 2 1 ltac:(lia)) ltac:(lia)). lia. }
    set (M := whole_at (Zpos q * pw 10 t) (pw 10 (- t)) g) in *.
    assert (BT : B E0 < T t).
    { pose proof compare_3 as C3. pose proof (T_mono (-323) t ltac:(lia) ltac:(lia)) as M1. destruct (Z.eq_dec E0 (-1074)) as [-> | Ne]; [lia |].
      assert (Eg : E0 = g - 53) by (unfold E0 in *; rewrite ex_eq in *; lia). pose proof (mag_scale q t g Ht G ltac:(lia)) as Mg.
      pose proof (B_step E0 (g - 1) ltac:(lia) ltac:(lia)) as S. replace (g - 1 - E0) with 52 in S by lia. pose proof (B_pos E0 ltac:(lia)).
      change (2 ^ 52) with 4503599627370496 in S. change (10 ^ 10) with 10000000000 in HQ. nia. }
    pose proof (rnd_form s _ _ g Nn Dn G) as F. fold E0 M in F. rewrite <- Rd in F. pose proof (B_pos E0 ltac:(lia)) as PB.
    change (10 ^ 9) with 1000000000 in *. change (10 ^ 10) with 10000000000 in *.
    destruct F as [(M0 & _) | (m' & x & Fx & Lx & Ex & Cx)]; [exfalso; rewrite M0 in Wd'; nia |].
    destruct (Zle_bool x 971) eqn:Lo; [| left; eauto]. right. exists m', x. split; [exact Fx |].
    assert (Bd' : bounded b_prec b_emax m' x = true) by (unfold bounded; rewrite Cx; exact Lo).
    assert (Ey : Zpos m' * B x = M * B E0) by (rewrite (B_step E0 x), Z.mul_assoc, Ex by lia; reflexivity).
    destruct (Z_le_gt_dec (T (t + 9)) (Zpos m' * B x)) as [Ly | Ly].
    + replace K with (t + 9) by (unfold t; lia). apply digits_from; [exact Bd' | exact Ht | exact HQ | rewrite Ey; lia | exact Ly].
    + pose proof (T_step t (t + 9) Ht ltac:(lia)) as S9. replace (t + 9 - t) with 9 in S9 by lia. change (10 ^ 9) with 1000000000 in S9.
      assert (Eq : Zpos q = 1000000000) by nia. destruct (Z.eq_dec t (-323)) as [Et | Et].
      * assert (Pk : power_ok K = true) by (replace K with (-314) by (unfold t in Et; lia); exact power_least). clear Et. unfold power_ok in Pk. change (10 ^ 9) with 1000000000 in Pk. rewrite <- Eq in Pk. fold t in Pk.
        pose proof (of_dec_sign s q t) as Sg. rewrite Fx in Sg. destruct (b_of_dec false (Zpos q) t) as [| | | s1 m1 e1]; try discriminate.
        assert (m1 = m' /\ e1 = x) as (-> & ->) by (split; congruence). rewrite frac_pw in Pk. destruct (round_to 10 (Zpos m' * pw 2 x) (pw 2 (- x))) as [q1 k1] in Pk |- *. apply andb_true_iff in Pk as (P1 & P2).
        apply Z.eqb_eq in P1, P2. congruence.
      * pose proof (T_pos (t - 1) ltac:(lia)) as Pt1. pose proof (T_step (t - 1) t ltac:(lia) ltac:(lia)) as S10. replace (t - (t - 1)) with 1 in S10 by lia. change (10 ^ 1) with 10 in S10.
        assert (BT1 : B E0 < T (t - 1)).
        { pose proof compare_3 as C3. pose proof (T_mono (-323) (t - 1) ltac:(lia) ltac:(lia)) as M1. destruct (Z.eq_dec E0 (-1074)) as [-> | Ne]; [lia |].
          assert (Eg : E0 = g - 53) by (unfold E0 in *; rewrite ex_eq in *; lia). pose proof (mag_scale q t g Ht G ltac:(lia)) as Mg.
          pose proof (B_step E0 (g - 1) ltac:(lia) ltac:(lia)) as S. replace (g - 1 - E0) with 52 in S by lia. change (2 ^ 52) with 4503599627370496 in S. nia. }
        rewrite Eq. replace K with (t - 1 + 10) by (unfold t; lia). apply digits_below; [exact Bd' | lia | | replace (t - 1 + 10) with (t + 9) by lia; lia].
        rewrite Ey. lia.
Qed.

Theorem fmt_stable_10 x : valid x = true -> (forall s, g_read 10 x <> S754_infinity s) -> fmt_g 10 (g_read 10 x) = fmt_g 10 x.
Proof.
  intros V Ni. destruct x as [s | s | | s m e]; try reflexivity. cbn [g_read] in *. rewrite frac_pw in *. cbn [valid_binary] in V.
  destruct (round_to 10 (Zpos m * pw 2 e) (pw 2 (- e))) as [Q K] eqn:E. replace (K - 10 + 1) with (K - 9) in * by lia.
  destruct (digits_stable s m e Q K V E) as [(s' & I) | (m' & e' & I & E')]; [exfalso; exact (Ni s' I) |].
  rewrite I. cbn [fmt_g]. rewrite !frac_pw, E, E'. reflexivity.
Qed.
