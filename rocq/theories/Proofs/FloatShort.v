(** Decimal numbers of few digits: the float nearest to a number of up to 15
    digits has these digits. *)
From Coq Require Import List NArith ZArith Bool Lia Floats.SpecFloat.
From Verif Require Import Py.Str Spec.Binary64 Spec.LinspaceSpec Proofs.FloatExact Proofs.FloatRound Proofs.FloatDec Proofs.FloatValid Proofs.FloatPrint Proofs.FloatStable.
Import ListNotations.
Local Open Scope Z_scope.
Local Notation ex := (fexp b_prec b_emax).

Lemma ten_p p : 1 <= p -> 10 ^ p = 10 * 10 ^ (p - 1).
Proof. intros Hp. replace p with (Z.succ (p - 1)) at 1 by lia. apply Z.pow_succ_r. lia. Qed.
Section Number.
Variables (m : positive) (e p : Z).
Hypothesis Bd : bounded b_prec b_emax m e = true.
Hypothesis Hp : 1 <= p.
Let n := Zpos m * pw 2 e.
Let d := pw 2 (- e).
Let X := Zpos m * B e.
Lemma digits_at Q t : -400 <= t -> 10 ^ (p - 1) <= Q < 10 ^ p -> 2 * Z.abs (Q * T t - X) < T t -> T (t + p - 1) <= X -> round_to p n d = (Q, t + p - 1).
Proof.
  intros Ht HQ N L. pose proof (T_pos t Ht) as P. pose proof (T_step t (t + p - 1 + 1) Ht ltac:(lia)) as S. replace (t + p - 1 + 1 - t) with p in S by lia.
  assert (Ek : dec_exp n d = t + p - 1) by (apply (exp_is m e Bd); [lia | exact L | rewrite S; fold X; nia]).
  rewrite round_to_eq. cbv zeta. rewrite Ek. replace (t + p - 1 - p + 1) with t by lia. pose proof (half_scale m e Bd t Ht) as H. fold n d X in H. set (q := half_even _ _) in *.
  assert (q = Q) as -> by nia. destruct (Z.eqb_spec Q (10 ^ p)); [lia | reflexivity].
Qed.
Lemma digits_under t : -400 <= t -> 2 * Z.abs (10 ^ p * T t - X) < T t -> X < T (t + p) -> round_to p n d = (10 ^ (p - 1), t + p).
Proof.
  intros Ht N L. pose proof (T_pos t Ht) as P. pose proof (T_step t (t + p - 1) Ht ltac:(lia)) as S. replace (t + p - 1 - t) with (p - 1) in S by lia.
  pose proof (ten_p p Hp) as Tp. pose proof (Z.pow_pos_nonneg 10 (p - 1) ltac:(lia) ltac:(lia)) as P9.
  assert (Ek : dec_exp n d = t + p - 1) by (apply (exp_is m e Bd); [lia | fold X; rewrite S; nia | fold X; replace (t + p - 1 + 1) with (t + p) by lia; exact L]).
  rewrite round_to_eq. cbv zeta. rewrite Ek. replace (t + p - 1 - p + 1) with t by lia. pose proof (half_scale m e Bd t Ht) as H. fold n d X in H. set (q := half_even _ _) in *.
  assert (q = 10 ^ p) as -> by nia. rewrite Z.eqb_refl. f_equal. lia.
Qed.
End Number.

(** The float nearest to q * 10^t, where q has at most 15 digits and t is not
    below -322, rounded to as many digits, is q * 10^t. *)
Theorem digits_kept p s q t : 1 <= p <= 15 -> 10 ^ (p - 1) <= Zpos q < 10 ^ p -> -322 <= t ->
  (exists s', b_of_dec s (Zpos q) t = S754_infinity s') \/
  (exists m e, b_of_dec s (Zpos q) t = S754_finite s m e /\ bounded b_prec b_emax m e = true /\ round_to p (Zpos m * pw 2 e) (pw 2 (- e)) = (Zpos q, t + p - 1)).
Proof.
  intros Hp HQ Lt. assert (Ht : -400 <= t) by lia.
  pose proof (pw_pos 10 t ltac:(lia)). pose proof (pw_pos 10 (- t) ltac:(lia)) as Dn.
  destruct (mag_exists (Zpos q * pw 10 t) (pw 10 (- t)) ltac:(nia) ltac:(lia)) as (g & G).
  pose proof (of_dec_rnd s q t g G) as Rd.
  pose proof (T_pos t Ht) as Pt. assert (Nn : 0 < Zpos q * pw 10 t) by nia.
  pose proof (whole_bounds _ _ g Nn Dn G) as (_ & _ & Wd). set (E0 := ex g) in *.
  assert (HE0 : -1074 <= E0) by (unfold E0; rewrite ex_eq; lia).
  assert (Wd' : 2 * Z.abs (Zpos q * T t - whole_at (Zpos q * pw 10 t) (pw 10 (- t)) g * B E0) <= B E0).
  { pose proof (proj1 (dist_scale q t Ht (whole_at (Zpos q * pw 10 t) (pw 10 (- t)) g) E0 2 1 ltac:(lia)) ltac:(lia)). lia. }
  set (M := whole_at (Zpos q * pw 10 t) (pw 10 (- t)) g) in *.
  pose proof (Z.pow_le_mono_r 10 p 15 ltac:(lia) ltac:(lia)) as P15. change (10 ^ 15) with 1000000000000000 in P15.
  pose proof (ten_p p ltac:(lia)) as Tp. pose proof (Z.pow_pos_nonneg 10 (p - 1) ltac:(lia) ltac:(lia)) as P9.
  assert (Nm : E0 <> -1074 -> 4503599627370496 * B E0 <= Zpos q * T t).
  { intros Ne. assert (Eg : E0 = g - 53) by (unfold E0 in *; rewrite ex_eq in *; lia). pose proof (mag_scale q t g Ht G ltac:(lia)) as Mg.
    pose proof (B_step E0 (g - 1) ltac:(lia) ltac:(lia)) as S. replace (g - 1 - E0) with 52 in S by lia. change (2 ^ 52) with 4503599627370496 in S. lia. }
  pose proof (B_pos E0 ltac:(lia)) as PB. pose proof compare_3 as C3.
  assert (BT : B E0 < T t).
  { pose proof (T_mono (-323) t ltac:(lia) ltac:(lia)) as M1. destruct (Z.eq_dec E0 (-1074)) as [E | Ne]; [rewrite E; lia |]. specialize (Nm Ne). nia. }
  pose proof (rnd_form s _ _ g Nn Dn G) as F. fold E0 M in F. rewrite <- Rd in F.
  destruct F as [(M0 & _) | (m' & x & Fx & Lx & Ex & Cx)]; [exfalso; rewrite M0 in Wd'; nia |].
  destruct (Zle_bool x 971) eqn:Lo; [| left; eauto]. right. exists m', x. split; [exact Fx |].
  assert (Bd' : bounded b_prec b_emax m' x = true) by (unfold bounded; rewrite Cx; exact Lo). split; [exact Bd' |].
  assert (Ey : Zpos m' * B x = M * B E0) by (rewrite (B_step E0 x), Z.mul_assoc, Ex by lia; reflexivity).
  destruct (Z_le_gt_dec (T (t + p - 1)) (Zpos m' * B x)) as [Ly | Ly].
  - apply digits_at; [exact Bd' | lia | exact Ht | exact HQ | rewrite Ey; lia | exact Ly].
  - pose proof (T_step t (t + p - 1) Ht ltac:(lia)) as S9. replace (t + p - 1 - t) with (p - 1) in S9 by lia.
    assert (Eq : Zpos q = 10 ^ (p - 1)) by nia. pose proof (T_pos (t - 1) ltac:(lia)) as Pt1. pose proof (T_step (t - 1) t ltac:(lia) ltac:(lia)) as S10. replace (t - (t - 1)) with 1 in S10 by lia. change (10 ^ 1) with 10 in S10.
    assert (BT1 : B E0 < T (t - 1)).
    { pose proof (T_mono (-323) (t - 1) ltac:(lia) ltac:(lia)) as M1. destruct (Z.eq_dec E0 (-1074)) as [E | Ne]; [rewrite E; lia |]. specialize (Nm Ne). nia. }
    rewrite Eq. replace (t + p - 1) with (t - 1 + p) by lia. apply digits_under; [exact Bd' | lia | lia | | replace (t - 1 + p) with (t + p - 1) by lia; lia].
    rewrite Ey. replace (10 ^ p * T (t - 1)) with (10 ^ (p - 1) * T t) by (rewrite Tp, S10; ring). rewrite <- Eq. lia.
Qed.
