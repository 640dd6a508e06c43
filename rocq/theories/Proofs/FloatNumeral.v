(** Numerals of few digits through float() and back to text. *)
From Coq Require Import List NArith ZArith QArith Qpower Qabs Bool Lia Lqa Floats.SpecFloat.
From Verif Require Import Py.Str Py.Num Spec.Binary64 Spec.Float64 Spec.DecimalSpec Proofs.FloatRound Proofs.FloatDec Proofs.FloatText
  Proofs.FloatValid Proofs.FloatPrint Proofs.FloatStable Proofs.FloatAcc Proofs.FloatShort.
Import ListNotations.
Local Open Scope Z_scope.

Lemma ten_nz : ~ (10 # 1 == 0)%Q. Proof. intros Q. discriminate Q. Qed.
Lemma ten_pow_pos z : (0 < (10 # 1) ^ z)%Q.
Proof. apply Qpower_0_lt. reflexivity. Qed.
(** Equal values, in whole numbers. *)
Lemma pw_of_Q a b t u : (inject_Z a * 10 ^ t == inject_Z b * 10 ^ u)%Q -> a * pw 10 t * pw 10 (- u) = b * pw 10 u * pw 10 (- t).
Proof.
  intros E. pose proof (pw_Q 10 t) as P1. pose proof (pw_Q 10 u) as P2. change (inject_Z 10) with (10 # 1)%Q in P1, P2.
  apply inject_Z_injective. rewrite !inject_Z_mult, P1, P2.
  transitivity (inject_Z a * 10 ^ t * (inject_Z (pw 10 (- t)) * inject_Z (pw 10 (- u))))%Q; [ring |]. rewrite E. ring.
Qed.
(** Filled up with zeros to [p] digits. *)
Lemma fill p q t : 0 < q < 10 ^ p -> exists q' t', 10 ^ (p - 1) <= q' < 10 ^ p /\ (inject_Z q' * 10 ^ t' == inject_Z q * 10 ^ t)%Q.
Proof.
  intros Hq. assert (Hp : 0 <= p) by (destruct (Z_le_gt_dec 0 p); [assumption | rewrite (Z.pow_neg_r 10 p) in Hq by lia; lia]).
  assert (G : forall n p, 0 <= p -> 10 ^ p <= q * 10 ^ Z.of_nat n -> 0 < q < 10 ^ p -> forall t, exists q' t', 10 ^ (p - 1) <= q' < 10 ^ p /\ (inject_Z q' * 10 ^ t' == inject_Z q * 10 ^ t)%Q).
  { clear. intros n. revert q. induction n as [| n IH]; intros q p Hp Hn Hq t.
    - change (Z.of_nat 0) with 0 in Hn. rewrite Z.pow_0_r in Hn. lia.
    - destruct (Z.eq_dec p 0) as [-> | Np]; [change (10 ^ 0) with 1 in Hq; lia |]. pose proof (ten_p p ltac:(lia)) as Tp.
      destruct (Z_le_gt_dec (10 ^ (p - 1)) q) as [L | L]; [exists q, t; split; [lia | reflexivity] |].
      destruct (IH (10 * q) p Hp) with (t := (t - 1)%Z) as (q' & t' & H1 & H2); [rewrite Nat2Z.inj_succ, Z.pow_succ_r in Hn by lia; lia | lia |].
      exists q', t'. split; [exact H1 |]. rewrite H2, inject_Z_mult. replace t with (t - 1 + 1)%Z at 2 by lia. rewrite (Qpower_plus _ _ 1 ten_nz). change ((10 # 1) ^ 1)%Q with (10 # 1)%Q. change (inject_Z 10) with (10 # 1)%Q. ring. }
  apply (G (Z.to_nat p)); [exact Hp | | exact Hq]. rewrite Z2Nat.id by lia. pose proof (Z.pow_pos_nonneg 10 p ltac:(lia) Hp). nia.
Qed.
Lemma least p q t z : 0 <= p -> q < 10 ^ p -> (10 ^ z <= inject_Z q * 10 ^ t)%Q -> z < t + p.
Proof.
  intros Hp Hq L. destruct (Z_lt_le_dec z (t + p)) as [D | D]; [exact D | exfalso].
  assert (A : (inject_Z q * 10 ^ t < 10 ^ z)%Q).
  { apply Qlt_le_trans with ((10 # 1) ^ (p + t))%Q.
    - rewrite (Qpower_plus _ _ _ ten_nz). apply Qmult_lt_compat_r; [apply ten_pow_pos |]. rewrite <- (Zpower_Qpower 10 p) by exact Hp. now rewrite <- Zlt_Qlt.
    - apply Qpower_le_compat_l; [lia | discriminate]. }
  apply (Qlt_not_le _ _ A L).
Qed.

(** What the shown digits denote. *)
Lemma shown_denotes s q p k lim zero : 1 <= p -> 10 ^ (p - 1) <= q < 10 ^ p ->
  denotes (sign_str s ++ show q p k lim zero) ((if s then - (1) else 1) * inject_Z q * 10 ^ (k - p + 1))%Q.
Proof.
  intros Hp Hq. pose proof (Z.pow_pos_nonneg 10 (p - 1) ltac:(lia) ltac:(lia)). destruct q as [| q | q]; try lia.
  destruct (show_parts p q k lim zero Hp Hq) as (ip & fp & x & i & j & E & D1 & N1 & D2 & Hi & Hj & V & K).
  rewrite E. unfold full, mant. rewrite <- !app_assoc.
  replace (match x with Some k0 => 101%N :: exp_str k0 | None => [] end) with (match x with Some k0 => lit "e" ++ exp_str k0 | None => [] end) by (destruct x; reflexivity).
  apply Denotes; [exact N1 | |].
  - change (digs (ip ++ opt fp) = true). apply digs_app. now split.
  - change ((if s then (- (1))%Q else 1%Q) * inject_Z (Zpos q) * 10 ^ (k - p + 1) == (if s then (- (1))%Q else 1%Q) * inject_Z (dv (ip ++ opt fp)) *
      10 ^ (match x with Some k0 => k0 | None => 0 end - Z.of_nat (length (ip ++ opt fp) - length ip)))%Q.
    replace (Z.of_nat (length (ip ++ opt fp) - length ip)) with (Z.of_nat (length (opt fp))) by (rewrite app_length; lia).
    rewrite K. set (u := match x with Some x => x | None => 0 end - Z.of_nat (length (opt fp))) in *.
    apply Qmult_inj_r with (z := (inject_Z (10 ^ j))%Q). { intros Q. apply (Qlt_not_eq 0 (inject_Z (10 ^ j))); [|symmetry; exact Q]. apply inj_lt. apply Z.pow_pos_nonneg; lia. }
    generalize (if s then (- (1))%Q else 1%Q) as sg. intros sg. set (D := dv (ip ++ opt fp)) in *. clearbody D u.
    transitivity (sg * inject_Z (D * 10 ^ j) * 10 ^ u)%Q.
    + rewrite V, inject_Z_mult, !Zpower_Qpower by lia. change (inject_Z 10) with (10 # 1)%Q.
      replace (u + i - j) with (u + i + - j) by lia. rewrite !(Qpower_plus _ _ _ ten_nz), Qpower_opp.
      assert (Nj : ~ ((10 # 1) ^ j == 0)%Q) by (intros Q; pose proof (ten_pow_pos j) as Pj; rewrite Q in Pj; discriminate). field. exact Nj.
    + rewrite inject_Z_mult. ring.
Qed.

(** Reading a numeral. *)
Lemma denotes_parse w v : denotes w v ->
  exists (s : bool) D u, 0 <= D /\ (v == (if s then - (1) else 1) * inject_Z D * 10 ^ u)%Q /\ b_parse w = Some (b_of_dec s D u).
Proof.
  intros H. destruct H as [s ip fp k v ds N1 Dg Ev]. change (digs (ip ++ opt fp) = true) in Dg. pose proof Dg as Dg'. apply digs_app in Dg' as (D1 & D2).
  change (v == (if s then (- (1))%Q else 1%Q) * inject_Z (dv (ip ++ opt fp)) * 10 ^ (match k with Some k0 => k0 | None => 0 end - Z.of_nat (length (ip ++ opt fp) - length ip)))%Q in Ev.
  replace (Z.of_nat (length (ip ++ opt fp) - length ip)) with (Z.of_nat (length (opt fp))) in Ev by (rewrite app_length; lia).
  exists s, (dv (ip ++ opt fp)), (match k with Some k0 => k0 | None => 0 end - Z.of_nat (length (opt fp))).
  split; [apply dv_bounds; exact Dg |]. split; [exact Ev |].
  replace (sign_str s ++ ip ++ match fp with Some f => c_dot :: f | None => [] end ++ match k with Some k0 => lit "e" ++ exp_str k0 | None => [] end) with (sign_str s ++ full ip fp k)
    by (unfold full, mant; rewrite <- app_assoc; destruct k; reflexivity).
  destruct ip as [| c ip]; [congruence |]. pose proof D1 as Dc. cbn [forallb] in Dc. apply andb_true_iff in Dc as (Dc & _).
  rewrite (parse_signed s (full (c :: ip) fp k) c _ eq_refl Dc (full_chars (c :: ip) fp k D1 D2)). now apply parse_full.
Qed.
Lemma numeral_digits p w v : 1 <= p <= 15 -> denotes w v -> few_digits p v -> (10 ^ (-300) <= Qabs v)%Q ->
  exists (s : bool) q t, 10 ^ (p - 1) <= Zpos q < 10 ^ p /\ -315 <= t /\ (v == (if s then - (1) else 1) * inject_Z (Zpos q) * 10 ^ t)%Q /\
    b_parse w = Some (b_of_dec s (Zpos q) t).
Proof.
  intros Hp Dn (q0 & t0 & Lq & Ev) Lv. destruct (denotes_parse w v Dn) as (s & D & u & HD & Eu & Ps).
  pose proof (ten_pow_pos u) as Pu. pose proof (ten_pow_pos t0) as Pt0.
  assert (A1 : (Qabs v == inject_Z (Z.abs q0) * 10 ^ t0)%Q).
  { rewrite Ev, Qabs_Qmult, (Qabs_pos (10 ^ t0)) by (apply Qlt_le_weak; exact Pt0). reflexivity. }
  assert (A2 : (Qabs v == inject_Z D * 10 ^ u)%Q).
  { rewrite Eu, !Qabs_Qmult, (Qabs_pos (10 ^ u)) by (apply Qlt_le_weak; exact Pu). rewrite (Qabs_pos (inject_Z D)) by (rewrite <- (Zle_Qle 0); exact HD). replace (Qabs (if s then (- (1))%Q else 1%Q)) with 1%Q by (destruct s; reflexivity). ring. }
  assert (Pv : (0 < Qabs v)%Q) by (eapply Qlt_le_trans; [apply (ten_pow_pos (-300)) | exact Lv]).
  assert (Q0 : 0 < Z.abs q0). { destruct (Z.eq_dec q0 0) as [-> | N]; [|lia]. exfalso. rewrite A1 in Pv. change (inject_Z (Z.abs 0)) with 0%Q in Pv. rewrite Qmult_0_l in Pv. discriminate Pv. }
  destruct (fill p (Z.abs q0) t0 ltac:(lia)) as (q & t & Hq & Eq).
  pose proof (Z.pow_pos_nonneg 10 (p - 1) ltac:(lia) ltac:(lia)) as P9. destruct q as [| q | q]; try lia.
  assert (E2 : (inject_Z D * 10 ^ u == inject_Z (Zpos q) * 10 ^ t)%Q) by (rewrite Eq, <- A1, A2; reflexivity).
  exists s, q, t. split; [exact Hq |]. split.
  { pose proof (least p (Zpos q) t (-300) ltac:(lia) ltac:(lia)) as Lt. rewrite Eq, <- A1 in Lt. specialize (Lt Lv). lia. }
  split; [rewrite Eu, <- !Qmult_assoc, E2; reflexivity |]. rewrite Ps. f_equal.
  destruct D as [| D |]; [exfalso | apply of_dec_value; apply pw_of_Q; exact E2 | lia].
  rewrite A2 in Pv. change (inject_Z 0) with 0%Q in Pv. rewrite Qmult_0_l in Pv. discriminate Pv.
Qed.

(** The fewest digits that read back are not more than those of the numeral. *)
Lemma shortest_few P m e Q K : bounded b_prec b_emax m e = true -> 1 <= P <= 15 ->
  round_to P (Zpos m * pw 2 e) (pw 2 (- e)) = (Q, K) -> b_of_dec false Q (K - P + 1) = S754_finite false m e ->
  forall f p, 1 <= p <= P -> p + Z.of_nat f = 17 ->
  let '(q, p', k) := shortest f p m e in 1 <= p' <= P /\ dec_exp (Zpos m * pw 2 e) (pw 2 (- e)) <= k.
Proof.
  intros Bd HP Er Eb. induction f as [| f IH]; intros p Hp Ep; [lia |]. cbn [shortest]. rewrite frac_pw.
  destruct (round_to p (Zpos m * pw 2 e) (pw 2 (- e))) as [q k] eqn:E1.
  assert (Lk : dec_exp (Zpos m * pw 2 e) (pw 2 (- e)) <= k).
  { rewrite round_to_eq in E1. cbv zeta in E1. destruct (_ =? _) in E1; apply (f_equal snd) in E1; cbn [snd] in E1; lia. }
  destruct (SFeqb (b_of_dec false q (k - p + 1)) (S754_finite false m e)) eqn:C; [split; [lia | exact Lk] |].
  destruct (next_up q p k) as [q' k'] eqn:Nu.
  destruct (SFeqb (b_of_dec false q' (k' - p + 1)) (S754_finite false m e)) eqn:C'.
  - split; [lia |]. unfold next_up in Nu. destruct (_ =? _) in Nu; apply (f_equal snd) in Nu; cbn [snd] in Nu; lia.
  - destruct (Z.eq_dec p P) as [-> | Np]; [| apply IH; lia]. exfalso. rewrite Er in E1. inversion E1; subst q k. rewrite Eb in C.
    assert (R : SFeqb (S754_finite false m e) (S754_finite false m e) = true).
    { unfold SFeqb, SFcompare. rewrite Z.compare_refl. change (Pos.compare_cont Eq m m) with (m ?= m)%positive. rewrite Pos.compare_refl. reflexivity. }
    congruence.
Qed.
Lemma exp_from_digits p n d Q K : round_to p n d = (Q, K) -> K - 1 <= dec_exp n d.
Proof. intros E. rewrite round_to_eq in E. cbv zeta in E. destruct (_ =? _) in E; apply (f_equal snd) in E; cbn [snd] in E; lia. Qed.
Lemma pad_Q q j t : 0 <= j -> (inject_Z (q * 10 ^ j) * 10 ^ (t - j) == inject_Z q * 10 ^ t)%Q.
Proof.
  intros Hj. rewrite inject_Z_mult, Zpower_Qpower by exact Hj. change (inject_Z 10) with (10 # 1)%Q. rewrite <- Qmult_assoc, <- (Qpower_plus _ _ _ ten_nz). replace (j + (t - j)) with t by lia. reflexivity.
Qed.
Lemma repr_same s q t m e : 10 ^ 14 <= Zpos q < 10 ^ 15 -> -315 <= t -> b_of_dec s (Zpos q) t = S754_finite s m e -> bounded b_prec b_emax m e = true ->
  round_to 15 (Zpos m * pw 2 e) (pw 2 (- e)) = (Zpos q, t + 14) ->
  exists q' p' k, b_repr (S754_finite s m e) = sign_str s ++ show q' p' k 16 true /\ 1 <= p' /\ 10 ^ (p' - 1) <= q' < 10 ^ p' /\
    (inject_Z q' * 10 ^ (k - p' + 1) == inject_Z (Zpos q) * 10 ^ t)%Q.
Proof.
  intros Hq Ht Eb Bd Er.
  assert (Eb' : b_of_dec false (Zpos q) (t + 14 - 15 + 1) = S754_finite false m e).
  { replace (t + 14 - 15 + 1) with t by lia. rewrite of_dec_sign in Eb. destruct (b_of_dec false (Zpos q) t) as [| | | s1 m1 e1] eqn:F; try discriminate.
    injection Eb as -> ->. destruct s1; [| reflexivity]. pose proof (of_dec_sign false q t) as G. rewrite F in G. discriminate G. }
  pose proof (shortest_ok 16 m e Bd 1 ltac:(lia) eq_refl) as S1. pose proof (shortest_few 15 m e (Zpos q) (t + 14) Bd ltac:(lia) Er Eb' 16 1 ltac:(lia) eq_refl) as S2.
  cbn [b_repr]. destruct (shortest 16 1 m e) as [[q' p'] k]. destruct S1 as (_ & Hq' & Eq'). destruct S2 as (Hp' & Lk).
  exists q', p', k. split; [reflexivity |]. split; [lia |]. split; [exact Hq' |].
  pose proof (exp_from_digits _ _ _ _ _ Er) as Le.
  pose proof (Z.pow_pos_nonneg 10 (p' - 1) ltac:(lia) ltac:(lia)) as P9. pose proof (Z.pow_pos_nonneg 10 (15 - p') ltac:(lia) ltac:(lia)) as P8.
  assert (Pd : exists q2, Zpos q2 = q' * 10 ^ (15 - p')) by (destruct (q' * 10 ^ (15 - p')) eqn:F; [nia | eauto | nia]). destruct Pd as (q2 & E2).
  pose proof (pad_Q q' (15 - p') (k - p' + 1) ltac:(lia)) as Pq. rewrite <- E2 in Pq. replace (k - p' + 1 - (15 - p')) with (k - 14) in Pq by lia.
  assert (H2 : 10 ^ 14 <= Zpos q2 < 10 ^ 15).
  { assert (A1 : 10 ^ (p' - 1) * 10 ^ (15 - p') = 10 ^ 14) by (rewrite <- Z.pow_add_r by lia; f_equal; lia).
    assert (A2 : 10 ^ p' * 10 ^ (15 - p') = 10 ^ 15) by (rewrite <- Z.pow_add_r by lia; f_equal; lia).
    rewrite E2, <- A1, <- A2. split; [apply Z.mul_le_mono_nonneg_r; lia | apply Z.mul_lt_mono_pos_r; lia]. }
  assert (B2 : b_of_dec false (Zpos q2) (k - 14) = S754_finite false m e).
  { rewrite <- Eq'. destruct q' as [| q' | q']; try lia. apply of_dec_value. apply pw_of_Q. exact Pq. }
  destruct (digits_kept 15 false q2 (k - 14) ltac:(lia) H2 ltac:(lia)) as [(s' & I) | (m2 & e2 & F2 & _ & R2)]; [congruence |].
  rewrite B2 in F2. injection F2 as <- <-. rewrite Er in R2. assert (Eq2 : Zpos q2 = Zpos q /\ k = t + 14) by (split; [congruence | apply (f_equal snd) in R2; cbn [snd] in R2; lia]). destruct Eq2 as (Eqq & ->).
  rewrite <- Pq, Eqq. replace (t + 14 - 14) with t by lia. reflexivity.
Qed.
