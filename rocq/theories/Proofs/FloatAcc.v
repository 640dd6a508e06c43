(** The digits of ["%.<p>g"] and the value. *)
From Coq Require Import List NArith ZArith QArith Qpower Qabs Bool Lia Lqa Floats.SpecFloat.
From Verif Require Import Py.Str Spec.Binary64 Spec.Float64 Proofs.FloatRound Proofs.FloatDec Proofs.FloatValid Proofs.FloatPrint Proofs.FloatStable.
Import ListNotations.

Lemma pw_Q (b : positive) z : inject_Z (pw (Zpos b) z) == inject_Z (Zpos b) ^ z * inject_Z (pw (Zpos b) (- z)).
Proof.
  assert (Nz : ~ inject_Z (Zpos b) == 0) by (intros Q; discriminate Q).
  unfold pw. rewrite !Zpower_Qpower by lia.
  rewrite <- Qpower_plus by exact Nz. replace (z + Z.max 0 (- z))%Z with (Z.max 0 z) by lia. reflexivity.
Qed.
Lemma inj_lt z : (0 < z)%Z -> 0 < inject_Z z.
Proof. intros. rewrite <- (Zlt_Qlt 0). assumption. Qed.
Lemma near_Q q m e s : (2 * Z.abs (q * (pw 2 (- e) * pw 10 s) - Zpos m * pw 2 e * pw 10 (- s)) <= pw 2 (- e) * pw 10 s)%Z ->
  2 * Qabs (inject_Z q * 10 ^ s - value m e) <= 10 ^ s.
Proof.
  intros H. pose proof (pw_Q 10 s) as P10. pose proof (pw_Q 2 e) as P2. change (inject_Z 10) with (10 # 1) in P10. change (inject_Z 2) with (2 # 1) in P2.
  pose proof (inj_lt _ (pw_pos 2 (- e) ltac:(lia))) as Pd. pose proof (inj_lt _ (pw_pos 10 (- s) ltac:(lia))) as Ps.
  set (d := inject_Z (pw 2 (- e))) in *. set (u := inject_Z (pw 10 (- s))) in *. set (h := (10 # 1) ^ s) in *. unfold value. set (w := (2 # 1) ^ e) in *.
  assert (Pdu : 0 < d * u) by (apply Qmult_lt_0_compat; assumption).
  assert (L1 : (2 * (q * (pw 2 (- e) * pw 10 s) - Zpos m * pw 2 e * pw 10 (- s)) <= pw 2 (- e) * pw 10 s)%Z) by lia.
  assert (L2 : (- (pw 2 (- e) * pw 10 s) <= 2 * (q * (pw 2 (- e) * pw 10 s) - Zpos m * pw 2 e * pw 10 (- s)))%Z) by lia.
  unfold Z.sub in L1, L2. rewrite Zle_Qle in L1, L2. repeat (rewrite ?inject_Z_mult, ?inject_Z_plus, ?inject_Z_opp in L1; rewrite ?inject_Z_mult, ?inject_Z_plus, ?inject_Z_opp in L2).
  fold d u in L1, L2. rewrite P10, P2 in L1, L2. fold h w u d in L1, L2.
  assert (A : 2 * (inject_Z q * h - inject_Z (Zpos m) * w) <= h).
  { apply (Qmult_le_l _ _ (d * u) Pdu). eapply Qle_trans; [| eapply Qle_trans; [exact L1 |]]; apply Qle_lteq; right; change (inject_Z 2) with 2; ring. }
  assert (A2 : - h <= 2 * (inject_Z q * h - inject_Z (Zpos m) * w)).
  { apply (Qmult_le_l _ _ (d * u) Pdu). eapply Qle_trans; [| eapply Qle_trans; [exact L2 |]]; apply Qle_lteq; right; change (inject_Z 2) with 2; ring. }
  apply Qabs_case; intros _; lra.
Qed.
Theorem digits_near p m e : (1 <= p)%Z -> bounded b_prec b_emax m e = true ->
  let '(n, d) := frac_of m e in let '(q, k) := round_to p n d in rounded p q (k - p + 1) (value m e).
Proof.
  intros Hp Bd. pose proof (round_digits p m e Hp Bd) as Dg. rewrite frac_pw in *. rewrite round_to_eq in *. cbv zeta in *.
  set (n := (Zpos m * pw 2 e)%Z) in *. set (d := pw 2 (- e)) in *. set (s := (dec_exp n d - p + 1)%Z) in *.
  pose proof (d_pos m e) as Hd. fold d in Hd. pose proof (pw_pos 10 s ltac:(lia)) as P1.
  pose proof (half_even_near (n * pw 10 (- s)) (d * pw 10 s) ltac:(nia)) as N. set (q := half_even _ _) in *.
  apply (near_Q q m e s) in N. destruct (Z.eqb_spec q (10 ^ p)) as [E | E]; (split; [exact Dg |]); fold s.
  - replace (dec_exp n d + 1 - p + 1)%Z with (s + 1)%Z by (unfold s; lia). rewrite E in N.
    assert (Q1 : (10 # 1) ^ (s + 1) == 10 * 10 ^ s) by (rewrite Qpower_plus by (intros Q; discriminate Q); change ((10 # 1) ^ 1) with (10 # 1); ring).
    assert (Q2 : inject_Z (10 ^ (p - 1)) * 10 == inject_Z (10 ^ p)).
    { change (inject_Z (10 ^ (p - 1)) * inject_Z 10 == inject_Z (10 ^ p)). rewrite <- inject_Z_mult. replace (10 ^ (p - 1) * 10)%Z with (10 ^ p)%Z; [reflexivity |]. rewrite Z.mul_comm, <- Z.pow_succ_r by lia. f_equal. lia. }
    pose proof (Qpower_0_le 10 s ltac:(discriminate)) as Hs.
    rewrite Q1. rewrite Qmult_assoc, Q2. eapply Qle_trans; [exact N |]. lra.
  - exact N.
Qed.
