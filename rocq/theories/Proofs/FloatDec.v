(** Decimal digits of binary64 numbers: the exponent, rounding to digits, and
    that 17 digits read back. *)
From Coq Require Import List NArith ZArith Bool Lia Floats.SpecFloat.
From Verif Require Import Spec.Binary64 Spec.LinspaceSpec Proofs.FloatExact Proofs.FloatRound.
Import ListNotations.
Local Open Scope Z_scope.

Lemma pw_nonneg b z : 0 <= z -> pw b z = b ^ z. Proof. intros. unfold pw. f_equal. lia. Qed.
Lemma pw_neg b z : z <= 0 -> pw b z = 1. Proof. intros. unfold pw. rewrite Z.max_l by lia. reflexivity. Qed.
Lemma frac_pw m e : frac_of m e = (Zpos m * pw 2 e, pw 2 (- e)).
Proof.
  unfold frac_of. destruct (Z.leb_spec 0 e).
  - rewrite pw_nonneg, pw_neg by lia. reflexivity.
  - rewrite pw_neg, pw_nonneg by lia. f_equal. lia.
Qed.
Lemma ge_pow_iff n d k : ge_pow n d k = true <-> d * pw 10 k <= n * pw 10 (- k).
Proof.
  unfold ge_pow. destruct (Z.leb_spec 0 k); rewrite Z.leb_le.
  - rewrite (pw_nonneg 10 k), (pw_neg 10 (- k)) by lia. lia.
  - rewrite (pw_neg 10 k), (pw_nonneg 10 (- k)) by lia. lia.
Qed.
Lemma raise_ok f n d : forall k, ge_pow n d k = true -> ge_pow n d (k + Z.of_nat f + 1) = false ->
  ge_pow n d (raise f n d k) = true /\ ge_pow n d (raise f n d k + 1) = false.
Proof.
  induction f as [| f IH]; intros k A B; cbn [raise].
  - split; [exact A |]. rewrite <- B. f_equal. lia.
  - destruct (ge_pow n d (k + 1)) eqn:Q; [| split; assumption]. apply IH; [exact Q |]. rewrite <- B. f_equal. lia.
Qed.
Definition start (a : Z) : Z := a * 30103 / 100000 - 2.
Definition start_ok (a : Z) : bool :=
  (pw 10 (start a) * pw 2 (- a) <=? pw 2 a * pw 10 (- start a)) &&
  (pw 2 (a + 1) * pw 10 (- (start a + 7)) <=? pw 10 (start a + 7) * pw 2 (- (a + 1))).
(** Checked for all exponents of the format, from one to the next: P, Q and R
    are 2^a, 10^(start a) and 10^(start a + 7), in units that make them whole. *)
Fixpoint walk (f : nat) (a P Q R : Z) : bool :=
  match f with
  | O => true
  | S f => (Q <=? P) && (2 * P <=? R) &&
      (if start (a + 1) =? start a then walk f (a + 1) (2 * P) Q R else walk f (a + 1) (2 * P) (10 * Q) (10 * R))
  end.
Lemma start_next a : start (a + 1) = start a \/ start (a + 1) = start a + 1.
Proof. unfold start. Z.to_euclidean_division_equations. lia. Qed.
Lemma walk_ok f : forall a, -1074 <= a -> -326 <= start a ->
  walk f a (2 ^ (a + 1074) * 10 ^ 326) (10 ^ (start a + 326) * 2 ^ 1074) (10 ^ (start a + 7 + 326) * 2 ^ 1074) = true ->
  forall b, a <= b < a + Z.of_nat f ->
  -326 <= start b /\ 10 ^ (start b + 326) * 2 ^ 1074 <= 2 ^ (b + 1074) * 10 ^ 326 /\ 2 ^ (b + 1 + 1074) * 10 ^ 326 <= 10 ^ (start b + 7 + 326) * 2 ^ 1074.
Proof.
  induction f as [| f IH]; intros a Ha Hs W b Hb; [lia |].
  cbn [walk] in W. rewrite !andb_true_iff, !Z.leb_le in W. destruct W as ((W1 & W2) & W3).
  replace (2 * (2 ^ (a + 1074) * 10 ^ 326)) with (2 ^ (a + 1 + 1074) * 10 ^ 326) in W2, W3 by (replace (a + 1 + 1074) with (Z.succ (a + 1074)) by lia; rewrite Z.pow_succ_r by lia; ring).
  destruct (Z.eq_dec a b) as [-> | Ne]; [auto |].
  apply (IH (a + 1)); [lia | | | lia]; destruct (start_next a) as [E | E]; rewrite E in *; try lia.
  - rewrite Z.eqb_refl in W3. exact W3.
  - destruct (Z.eqb_spec (start a + 1) (start a)); [lia |].
    replace (10 ^ (start a + 1 + 326)) with (10 * 10 ^ (start a + 326)) by (replace (start a + 1 + 326) with (Z.succ (start a + 326)) by lia; rewrite Z.pow_succ_r by lia; ring).
    replace (10 ^ (start a + 1 + 7 + 326)) with (10 * 10 ^ (start a + 7 + 326)) by (replace (start a + 1 + 7 + 326) with (Z.succ (start a + 7 + 326)) by lia; rewrite Z.pow_succ_r by lia; ring).
    rewrite <- !Z.mul_assoc. exact W3.
Qed.
Lemma walked : walk 2098 (-1074) (2 ^ (-1074 + 1074) * 10 ^ 326) (10 ^ (start (-1074) + 326) * 2 ^ 1074) (10 ^ (start (-1074) + 7 + 326) * 2 ^ 1074) = true.
Proof. vm_compute. reflexivity. Qed.
Lemma unscale k x y : 0 < k -> k * x <= k * y -> x <= y.
Proof. intros. apply (Z.mul_le_mono_pos_l x y k); assumption. Qed.
Lemma pw_up b o z : 0 < b -> 0 <= o -> - o <= z -> b ^ (z + o) * pw b (- z) = pw b z * b ^ o.
Proof.
  intros Hb Ho Hz. destruct (Z_le_gt_dec 0 z).
  - rewrite (pw_nonneg b z), pw_neg by lia. rewrite Z.mul_1_r. apply Z.pow_add_r; lia.
  - rewrite (pw_neg b z), pw_nonneg by lia. rewrite <- Z.pow_add_r by lia. replace (z + o + - z) with o by lia. lia.
Qed.
Lemma start_at a : -1074 <= a <= 1023 -> start_ok a = true.
Proof.
  intros H. destruct (walk_ok 2098 (-1074) ltac:(lia) ltac:(vm_compute; discriminate) walked a ltac:(lia)) as (L & W1 & W2). unfold start_ok.
  rewrite andb_true_iff, !Z.leb_le. set (s := start a) in *.
  assert (P0 : 0 < 10 ^ 326 * 2 ^ 1074) by (apply Z.mul_pos_pos; apply Z.pow_pos_nonneg; lia).
  pose proof (pw_up 10 326 s ltac:(lia) ltac:(lia) ltac:(lia)) as E1. pose proof (pw_up 10 326 (s + 7) ltac:(lia) ltac:(lia) ltac:(lia)) as E2.
  pose proof (pw_up 2 1074 a ltac:(lia) ltac:(lia) ltac:(lia)) as E3. pose proof (pw_up 2 1074 (a + 1) ltac:(lia) ltac:(lia) ltac:(lia)) as E4.
  pose proof (pw_pos 10 (- s) ltac:(lia)) as Q1. pose proof (pw_pos 10 (- (s + 7)) ltac:(lia)) as Q2. pose proof (pw_pos 2 (- a) ltac:(lia)) as Q3. pose proof (pw_pos 2 (- (a + 1)) ltac:(lia)) as Q4.
  revert P0 E1 E2 E3 E4 W1 W2. generalize (10 ^ 326) as x, (2 ^ 1074) as y. intros x y P0 E1 E2 E3 E4 W1 W2.
  split; apply (unscale (x * y)); [exact P0 | | exact P0 |].
  - replace (x * y * (pw 10 s * pw 2 (- a))) with (y * pw 2 (- a) * (pw 10 s * x)) by ring. replace (x * y * (pw 2 a * pw 10 (- s))) with (x * pw 10 (- s) * (pw 2 a * y)) by ring.
    rewrite <- E1, <- E3. replace (y * pw 2 (- a) * (10 ^ (s + 326) * pw 10 (- s))) with (pw 2 (- a) * pw 10 (- s) * (10 ^ (s + 326) * y)) by ring.
    replace (x * pw 10 (- s) * (2 ^ (a + 1074) * pw 2 (- a))) with (pw 2 (- a) * pw 10 (- s) * (2 ^ (a + 1074) * x)) by ring.
    apply Z.mul_le_mono_nonneg_l; [nia | exact W1].
  - replace (x * y * (pw 2 (a + 1) * pw 10 (- (s + 7)))) with (x * pw 10 (- (s + 7)) * (pw 2 (a + 1) * y)) by ring.
    replace (x * y * (pw 10 (s + 7) * pw 2 (- (a + 1)))) with (y * pw 2 (- (a + 1)) * (pw 10 (s + 7) * x)) by ring.
    rewrite <- E2, <- E4. replace (x * pw 10 (- (s + 7)) * (2 ^ (a + 1 + 1074) * pw 2 (- (a + 1)))) with (pw 2 (- (a + 1)) * pw 10 (- (s + 7)) * (2 ^ (a + 1 + 1074) * x)) by ring.
    replace (y * pw 2 (- (a + 1)) * (10 ^ (s + 7 + 326) * pw 10 (- (s + 7)))) with (pw 2 (- (a + 1)) * pw 10 (- (s + 7)) * (10 ^ (s + 7 + 326) * y)) by ring.
    apply Z.mul_le_mono_nonneg_l; [nia | exact W2].
Qed.

Section Number.
Variables (m : positive) (e : Z).
Hypothesis Bd : bounded b_prec b_emax m e = true.
Let n := Zpos m * pw 2 e.
Let d := pw 2 (- e).
Lemma n_pos : 0 < n. Proof. unfold n. pose proof (pw_pos 2 e ltac:(lia)). nia. Qed.
Lemma d_pos : 0 < d. Proof. apply pw_pos. lia. Qed.
Lemma log_diff : Z.log2 n - Z.log2 d = Z.log2 (Zpos m) + e.
Proof.
  unfold n, d, pw. rewrite Z.log2_mul_pow2 by lia. rewrite Z.log2_pow2 by lia. lia.
Qed.
Lemma two_bounds : let a := Z.log2 (Zpos m) + e in pw 2 a * d <= n * pw 2 (- a) /\ n * pw 2 (- (a + 1)) < pw 2 (a + 1) * d.
Proof.
  cbv zeta. pose proof (Z.log2_spec (Zpos m) ltac:(lia)) as (L1 & L2). pose proof (Z.log2_nonneg (Zpos m)) as L0.
  set (g := Z.log2 (Zpos m)) in *. unfold n, d.
  pose proof (pw_shift 2 e (g + e) ltac:(lia) ltac:(lia)) as S1. replace (g + e - e) with g in S1 by lia.
  pose proof (pw_shift 2 e (g + e + 1) ltac:(lia) ltac:(lia)) as S2. replace (g + e + 1 - e) with (Z.succ g) in S2 by lia.
  pose proof (pw_pos 2 e ltac:(lia)). pose proof (pw_pos 2 (- (g + e)) ltac:(lia)). pose proof (pw_pos 2 (- (g + e + 1)) ltac:(lia)).
  split.
  - rewrite S1. assert (0 < pw 2 e * pw 2 (- (g + e))) by nia. nia.
  - rewrite S2. assert (0 < pw 2 e * pw 2 (- (g + e + 1))) by nia. nia.
Qed.
Lemma dec_exp_ok : ge_pow n d (dec_exp n d) = true /\ ge_pow n d (dec_exp n d + 1) = false.
Proof.
  unfold dec_exp. rewrite log_diff. pose proof two_bounds as (T1 & T2). cbv zeta in T1, T2.
  set (a := Z.log2 (Zpos m) + e) in *. fold (start a).
  assert (Ra : -1074 <= a <= 1023).
  { pose proof (bounded_inv m e Bd) as (R1 & R2 & _). pose proof (Z.log2_nonneg (Zpos m)).
    assert (Z.log2 (Zpos m) < 53) by (apply Z.log2_lt_pow2; lia). unfold a. lia. }
  pose proof (start_at a Ra) as S. unfold start_ok in S. rewrite andb_true_iff, !Z.leb_le in S. destruct S as (S1 & S2).
  pose proof d_pos. pose proof n_pos.
  apply raise_ok.
  - apply ge_pow_iff. apply (Z.mul_le_mono_pos_r _ _ (pw 2 (- a))); [apply pw_pos; lia |].
    pose proof (pw_pos 10 (- start a) ltac:(lia)).
    transitivity (d * (pw 2 a * pw 10 (- start a))); [nia |]. nia.
  - apply not_true_is_false. rewrite ge_pow_iff. replace (start a + Z.of_nat 6 + 1) with (start a + 7) by lia. intros Q.
    pose proof (pw_pos 10 (- (start a + 7)) ltac:(lia)). pose proof (pw_pos 2 (- (a + 1)) ltac:(lia)).
    assert (d * pw 10 (start a + 7) * pw 2 (- (a + 1)) <= n * pw 2 (- (a + 1)) * pw 10 (- (start a + 7))) by nia.
    assert (n * pw 2 (- (a + 1)) * pw 10 (- (start a + 7)) < pw 2 (a + 1) * d * pw 10 (- (start a + 7))) by nia. nia.
Qed.
End Number.

Lemma half_even_near a b : 0 < b -> 2 * Z.abs (half_even a b * b - a) <= b.
Proof.
  intros Hb. unfold half_even. pose proof (Z.div_mod a b ltac:(lia)) as E. pose proof (Z.mod_pos_bound a b Hb) as H.
  destruct ((2 * (a mod b) <? b) || ((2 * (a mod b) =? b) && Z.even (a / b))) eqn:C.
  - rewrite orb_true_iff, andb_true_iff, Z.ltb_lt, Z.eqb_eq in C. nia.
  - rewrite orb_false_iff, Z.ltb_ge in C. nia.
Qed.
Lemma half_even_bounds a b x y : 0 < b -> x * b <= a < y * b -> x <= half_even a b <= y.
Proof.
  intros Hb (H1 & H2). unfold half_even. assert (x <= a / b) by (apply Z.div_le_lower_bound; lia). assert (a / b < y) by (apply Z.div_lt_upper_bound; lia).
  destruct (_ || _); lia.
Qed.
Lemma pw10_split k p : 1 <= p -> pw 10 k * pw 10 (- (k - p + 1)) = 10 ^ (p - 1) * (pw 10 (k - p + 1) * pw 10 (- k)).
Proof. intros Hp. pose proof (pw_shift 10 (k - p + 1) k ltac:(lia) ltac:(lia)) as S. replace (k - (k - p + 1)) with (p - 1) in S by lia. exact S. Qed.
(** Rounding to [p] digits, n/d between 10^k and 10^(k+1). *)
Lemma round_to_spec p n d : 1 <= p -> 0 < n -> 0 < d -> ge_pow n d (dec_exp n d) = true -> ge_pow n d (dec_exp n d + 1) = false ->
  exists q, let s := dec_exp n d - p + 1 in let '(Q, K) := round_to p n d in
  10 ^ (p - 1) <= Q < 10 ^ p /\ 0 < q /\
  Q * pw 10 (K - p + 1) * pw 10 (- s) = q * pw 10 s * pw 10 (- (K - p + 1)) /\
  2 * Z.abs (q * (d * pw 10 s) - n * pw 10 (- s)) <= d * pw 10 s.
Proof.
  intros Hp Hn Hd G1 G2. unfold round_to. set (k := dec_exp n d) in *. set (s := k - p + 1).
  exists (half_even (n * pw 10 (- s)) (d * pw 10 s)).
  assert (Eq : (if 0 <=? s then half_even n (d * 10 ^ s) else half_even (n * 10 ^ (- s)) d) = half_even (n * pw 10 (- s)) (d * pw 10 s)).
  { destruct (Z.leb_spec 0 s).
    - rewrite (pw_nonneg 10 s), (pw_neg 10 (- s)) by lia. f_equal. lia.
    - rewrite (pw_neg 10 s), (pw_nonneg 10 (- s)) by lia. f_equal. lia. }
  rewrite Eq. clear Eq. set (q := half_even (n * pw 10 (- s)) (d * pw 10 s)).
  pose proof (pw_pos 10 s ltac:(lia)) as P1. pose proof (pw_pos 10 (- s) ltac:(lia)) as P2.
  assert (Hb : 0 < d * pw 10 s) by nia.
  assert (Hq : 10 ^ (p - 1) <= q <= 10 ^ p).
  { apply half_even_bounds; [exact Hb |]. apply ge_pow_iff in G1. apply not_true_iff_false in G2. rewrite ge_pow_iff in G2. apply Z.nle_gt in G2.
    pose proof (pw10_split k p Hp) as S1. fold s in S1.
    assert (S2 : pw 10 (k + 1) * pw 10 (- s) = 10 ^ p * (pw 10 s * pw 10 (- (k + 1)))).
    { pose proof (pw10_split (k + 1) (p + 1) ltac:(lia)) as S2. replace (k + 1 - (p + 1) + 1) with s in S2 by (unfold s; lia). replace (p + 1 - 1) with p in S2 by lia. exact S2. }
    pose proof (pw_pos 10 (- k) ltac:(lia)) as P3. pose proof (pw_pos 10 (- (k + 1)) ltac:(lia)) as P4.
    split.
    - apply (Z.mul_le_mono_pos_r _ _ (pw 10 (- k))); [lia |].
      replace (10 ^ (p - 1) * (d * pw 10 s) * pw 10 (- k)) with (d * pw 10 k * pw 10 (- s)) by nia. nia.
    - apply (Z.mul_lt_mono_pos_r (pw 10 (- (k + 1)))); [lia |].
      replace (10 ^ p * (d * pw 10 s) * pw 10 (- (k + 1))) with (d * pw 10 (k + 1) * pw 10 (- s)) by nia. nia. }
  assert (Tp : 10 ^ p = 10 * 10 ^ (p - 1)) by (rewrite <- Z.pow_succ_r by lia; f_equal; lia).
  pose proof (Z.pow_pos_nonneg 10 (p - 1) ltac:(lia) ltac:(lia)) as P5.
  pose proof (half_even_near (n * pw 10 (- s)) (d * pw 10 s) Hb) as Near. fold q in Near.
  destruct (Z.eqb_spec q (10 ^ p)) as [E | E].
  - replace (k + 1 - p + 1) with (s + 1) by (unfold s; lia). split; [lia |]. split; [lia |]. split; [| exact Near].
    rewrite E, Tp. pose proof (pw_shift 10 s (s + 1) ltac:(lia) ltac:(lia)) as S. replace (s + 1 - s) with 1 in S by lia. change (10 ^ 1) with 10 in S. nia.
  - fold s. split; [lia |]. split; [lia |]. split; [ring | exact Near].
Qed.

(** 17 digits read back. *)
Lemma digits_17 s m e : bounded b_prec b_emax m e = true ->
  let '(n, d) := frac_of m e in let '(Q, K) := round_to 17 n d in
  10 ^ 16 <= Q < 10 ^ 17 /\ b_of_dec s Q (K - 17 + 1) = S754_finite s m e.
Proof.
  intros Bd. rewrite frac_pw. pose proof (n_pos m e) as Hn. pose proof (d_pos m e) as Hd. pose proof (dec_exp_ok m e Bd) as (G1 & G2). cbv zeta in *.
  set (n := Zpos m * pw 2 e) in *. set (d := pw 2 (- e)) in *.
  destruct (round_to_spec 17 n d ltac:(lia) Hn Hd G1 G2) as (q & R). set (k := dec_exp n d) in *. set (t := k - 17 + 1) in *. cbv zeta in R.
  destruct (round_to 17 n d) as [Q K]. change (17 - 1) with 16 in R. destruct R as (R1 & R2 & R3 & R4). split; [exact R1 |].
  destruct q as [| q |]; try lia. destruct Q as [| Q |]; try lia.
  rewrite (of_dec_value s Q q (K - 17 + 1) t R3).
  pose proof (pw_pos 10 t ltac:(lia)) as P1. pose proof (pw_pos 10 (- t) ltac:(lia)) as P2. pose proof (pw_pos 2 e ltac:(lia)) as P3.
  destruct (mag_exists (Zpos q * pw 10 t) (pw 10 (- t)) ltac:(nia) P2) as (g & G). rewrite (of_dec_rnd s q t g G).
  apply nearest; [nia | exact P2 | exact G | exact Bd |].
  pose proof (bounded_inv m e Bd) as (_ & M1 & _).
  unfold num_at, den_at. fold d.
  replace (Zpos q * pw 10 t * d - Zpos m * (pw 10 (- t) * pw 2 e)) with (Zpos q * (d * pw 10 t) - n * pw 10 (- t)) by (unfold n; ring).
  apply ge_pow_iff in G1. pose proof (pw10_split k 17 ltac:(lia)) as S. fold t in S. change (17 - 1) with 16 in S.
  pose proof (pw_pos 10 (- k) ltac:(lia)) as P4.
  assert (Key : 10 ^ 16 * (d * pw 10 t) <= n * pw 10 (- t)).
  { apply (Z.mul_le_mono_pos_r _ _ (pw 10 (- k))); [lia |]. replace (10 ^ 16 * (d * pw 10 t) * pw 10 (- k)) with (d * pw 10 k * pw 10 (- t)) by nia. nia. }
  set (Y := d * pw 10 t) in *. set (B := pw 10 (- t) * pw 2 e) in *.
  assert (En : n * pw 10 (- t) = Zpos m * B) by (unfold n, B; ring). rewrite En in Key.
  assert (HB : 0 < B) by (unfold B; nia). assert (HY : 0 < Y) by (unfold Y; nia).
  destruct (Z.eqb_spec (Zpos m) (2 ^ 52)) as [Em | Em].
  - assert (2 * Y < B) by (rewrite Em in Key; lia). lia.
  - assert (Y < B) by nia. lia.
Qed.
Lemma SFeqb_finite x m e : SFeqb x (S754_finite false m e) = true -> x = S754_finite false m e.
Proof.
  unfold SFeqb. destruct x as [s | s | | s m' e']; cbn [SFcompare]; try (destruct s; discriminate); try discriminate.
  destruct s; [discriminate |]. destruct (Z.compare_spec e' e) as [-> | ? | ?]; try discriminate.
  change (Pos.compare_cont Eq m' m) with (m' ?= m)%positive. destruct (Pos.compare_spec m' m) as [-> | ? | ?]; try discriminate. reflexivity.
Qed.
Lemma of_dec_sign s p e : b_of_dec s (Zpos p) e = match b_of_dec false (Zpos p) e with S754_finite _ m x => S754_finite s m x | S754_zero _ => S754_zero s | S754_infinity _ => S754_infinity s | S754_nan => S754_nan end.
Proof.
  pose proof (pw_pos 10 e ltac:(lia)). pose proof (pw_pos 10 (- e) ltac:(lia)).
  destruct (mag_exists (Zpos p * pw 10 e) (pw 10 (- e)) ltac:(nia) ltac:(lia)) as (g & G).
  rewrite !(of_dec_rnd _ p e g G). unfold rnd, fin, settle.
  destruct (shr_fexp _ _ _ _ _) as [mrs x]. destruct (shr_m mrs); try reflexivity. destruct (Zle_bool _ _); reflexivity.
Qed.
Lemma shortest_ok f m e : bounded b_prec b_emax m e = true -> forall p, 1 <= p -> p + Z.of_nat f = 17 ->
  let '(q, p', k) := shortest f p m e in 1 <= p' /\ 10 ^ (p' - 1) <= q < 10 ^ p' /\ b_of_dec false q (k - p' + 1) = S754_finite false m e.
Proof.
  intros Bd. induction f as [| f IH]; intros p Hp Ep; cbn [shortest].
  - replace p with 17 by lia. pose proof (digits_17 false m e Bd) as Q. destruct (frac_of m e) as [n d]. destruct (round_to 17 n d) as [q k].
    destruct Q as (Q1 & Q2). split; [lia |]. split; [exact Q1 | exact Q2].
  - destruct (frac_of m e) as [n d] eqn:Ef. destruct (round_to p n d) as [q k] eqn:Er.
    assert (Rq : 10 ^ (p - 1) <= q < 10 ^ p).
    { rewrite frac_pw in Ef. pose proof (f_equal fst Ef) as En. pose proof (f_equal snd Ef) as Ed. cbn [fst snd] in En, Ed. clear Ef.
      pose proof (dec_exp_ok m e Bd) as (G1 & G2). pose proof (n_pos m e) as Hn. pose proof (d_pos m e) as Hd. cbv zeta in *. subst n d.
      destruct (round_to_spec p _ _ Hp Hn Hd G1 G2) as (q' & R). rewrite Er in R. apply R. }
    destruct (SFeqb (b_of_dec false q (k - p + 1)) (S754_finite false m e)) eqn:C.
    + split; [lia |]. split; [exact Rq | now apply SFeqb_finite].
    + destruct (next_up q p k) as [q' k'] eqn:Nu.
      destruct (SFeqb (b_of_dec false q' (k' - p + 1)) (S754_finite false m e)) eqn:C'; [| apply IH; lia].
      split; [lia |]. split; [| now apply SFeqb_finite]. unfold next_up in Nu.
      pose proof (Z.pow_lt_mono_r 10 (p - 1) p ltac:(lia) ltac:(lia) ltac:(lia)). destruct (Z.eqb_spec (q + 1) (10 ^ p)); inversion Nu; subst; lia.
Qed.
