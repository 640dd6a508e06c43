(** Values of grids in floating point arithmetic and in ten digits. *)
From Coq Require Import List NArith ZArith QArith Qpower Qabs Bool Lia Lqa Floats.SpecFloat.
From Verif Require Import Py.Str Py.Num Py.Arith Spec.Binary64 Spec.Float64 Spec.LinspaceSpec Spec.DecimalSpec Spec.GridFloatSpec
  Spec.CollectorSpec Proofs.NumLemmas Proofs.FloatExact Proofs.FloatRound Proofs.FloatDec Proofs.FloatText Proofs.FloatValid Proofs.FloatPrint Proofs.FloatStable
  Proofs.FloatAcc Proofs.FloatShort Proofs.FloatNumeral Props.FloatProps Props.NumeralProps.
Import ListNotations.
Local Open Scope Z_scope.
Local Notation dg := Zdigits2.
Local Notation ex := (fexp b_prec b_emax).

(** A decimal number that is a float is read as this float. *)
Lemma dec_exact s q t m e : bounded b_prec b_emax m e = true -> (inject_Z (Zpos q) * 10 ^ t == inject_Z (Zpos m) * 2 ^ e)%Q ->
  b_of_dec s (Zpos q) t = S754_finite s m e.
Proof.
  intros Bd V. pose proof (pw_pos 10 t ltac:(lia)) as P1. pose proof (pw_pos 10 (- t) ltac:(lia)) as P2.
  pose proof (pw_pos 2 e ltac:(lia)) as P3. pose proof (pw_pos 2 (- e) ltac:(lia)) as P4.
  assert (E : Zpos q * pw 10 t * pw 2 (- e) = Zpos m * (pw 10 (- t) * pw 2 e)).
  { pose proof (pw_Q 10 t) as Q1. pose proof (pw_Q 2 e) as Q2. change (inject_Z 10) with (10 # 1)%Q in Q1. change (inject_Z 2) with (2 # 1)%Q in Q2.
    apply inject_Z_injective. rewrite !inject_Z_mult, Q1, Q2.
    transitivity (inject_Z (Zpos q) * 10 ^ t * (inject_Z (pw 10 (- t)) * inject_Z (pw 2 (- e))))%Q; [ring |]. rewrite V. ring. }
  destruct (mag_exists (Zpos q * pw 10 t) (pw 10 (- t)) ltac:(nia) ltac:(lia)) as (g & G).
  rewrite (of_dec_rnd s q t g G). apply nearest; auto; [nia |]. unfold num_at, den_at. rewrite E.
  replace (Zpos m * (pw 10 (- t) * pw 2 e) - Zpos m * (pw 10 (- t) * pw 2 e)) with 0 by lia. change (4 * Z.abs 0) with 0.
  apply Z.mul_pos_pos; [destruct (Zpos m =? 2 ^ 52); lia | apply Z.mul_pos_pos; lia].
Qed.
Lemma two_pow_pos z : (0 < (2 # 1) ^ z)%Q.
Proof. apply Qpower_0_lt. reflexivity. Qed.
Lemma fl_value z e : in_range z -> -1074 <= e <= 971 -> z <> 0 -> exists m x, fl z e = S754_finite (z <? 0) m x /\ bounded b_prec b_emax m x = true /\
  (inject_Z (Zpos m) * 2 ^ x == inject_Z (Z.abs z) * 2 ^ e)%Q.
Proof.
  intros R He Nz. destruct (fl_parts z e R He Nz) as (m & x & E & L & Em & _). exists m, x. split; [exact E |]. split.
  - pose proof (normalize_valid z e false) as V. fold (fl z e) in V. rewrite E in V. exact V.
  - rewrite Em, inject_Z_mult. rewrite Zpower_Qpower by lia. rewrite <- Qmult_assoc, <- Qpower_plus by discriminate.
    replace (e - x + x) with e by lia. reflexivity.
Qed.

Lemma numeral_of q t : exists w, denotes w (inject_Z q * 10 ^ t).
Proof.
  exists (sign_str (q <? 0) ++ dec_of_Z (Z.abs q) ++ [] ++ lit "e" ++ exp_str t).
  apply (Denotes (q <? 0) (dec_of_Z (Z.abs q)) None (Some t)); [apply dec_of_Z_nonnil | |].
  - rewrite app_nil_r. destruct (Z.abs q) as [| p | p] eqn:E; [reflexivity | apply dec_digs | lia].
  - rewrite app_nil_r, Nat.sub_diag. change (digit_value (dec_of_Z (Z.abs q))) with (dv (dec_of_Z (Z.abs q))).
    replace (dv (dec_of_Z (Z.abs q))) with (Z.abs q) by (destruct (Z.abs q) as [| p | p] eqn:E; [reflexivity | symmetry; apply dec_dv | lia]).
    change (Z.of_nat 0) with 0. rewrite Z.sub_0_r. apply Qmult_comp; [| reflexivity].
    destruct (Z.ltb_spec q 0); [rewrite Z.abs_neq by lia | rewrite Z.abs_eq by lia].
    + rewrite inject_Z_opp. ring.
    + ring.
Qed.
Lemma abs_value z e : (Qabs (inject_Z z * 2 ^ e) == inject_Z (Z.abs z) * 2 ^ e)%Q.
Proof.
  rewrite Qabs_Qmult. apply Qmult_comp; [reflexivity |]. apply Qabs_pos. apply Qlt_le_weak, two_pow_pos.
Qed.
(** Such a number is printed in full. *)
Lemma grid_printed z e : Z.abs z < 2 ^ 52 -> -900 <= e <= 900 -> few_digits 10 (inject_Z z * 2 ^ e) -> b_parse (fmt_g 10 (fl z e)) = Some (fl z e).
Proof.
  intros Hz He Hf. destruct (Z.eq_dec z 0) as [-> | Nz]; [reflexivity |].
  assert (R : in_range z) by (unfold in_range; lia).
  destruct (fl_value z e R ltac:(lia) Nz) as (m & x & E & Bd & V).
  pose proof Hf as (q & t & Hq & Ev). destruct (numeral_of q t) as (w & Hw).
  assert (Hw' : denotes w (inject_Z z * 2 ^ e)) by (eapply denotes_eq; [exact Hw | symmetry; exact Ev]).
  destruct (denotes_parse w _ Hw') as (s & D & u & HD & EvD & P).
  assert (Pz : (0 < inject_Z (Z.abs z) * 2 ^ e)%Q).
  { rewrite <- (Qmult_0_l (2 ^ e)). apply Qmult_lt_compat_r; [apply two_pow_pos |]. change 0%Q with (inject_Z 0). rewrite <- Zlt_Qlt. lia. }
  assert (ED : (inject_Z D * 10 ^ u == inject_Z (Z.abs z) * 2 ^ e)%Q).
  { rewrite <- abs_value, EvD, <- Qmult_assoc, Qabs_Qmult.
    assert (N0 : (0 <= inject_Z D * 10 ^ u)%Q).
    { apply Qmult_le_0_compat; [change 0%Q with (inject_Z 0); rewrite <- Zle_Qle; lia | apply Qlt_le_weak, ten_pow_pos]. }
    rewrite (Qabs_pos _ N0). destruct s; [change (Qabs (- (1))) with 1%Q | change (Qabs 1) with 1%Q]; ring. }
  assert (HD1 : 0 < D).
  { destruct (Z.eq_dec D 0) as [-> | ND]; [exfalso | lia]. rewrite <- ED in Pz. change (inject_Z 0) with 0%Q in Pz. rewrite Qmult_0_l in Pz. discriminate Pz. }
  assert (Es : s = (z <? 0)).
  { assert (K : ((if s then - (1) else 1) * (inject_Z (Z.abs z) * 2 ^ e) == inject_Z z * 2 ^ e)%Q) by (rewrite EvD, <- ED; ring).
    assert (K2 : ((if s then - (1) else 1) * inject_Z (Z.abs z) == inject_Z z)%Q).
    { apply (Qmult_inj_r _ _ (2 ^ e)%Q); [intros Q; pose proof (two_pow_pos e) as T; rewrite Q in T; discriminate T |]. rewrite <- Qmult_assoc. exact K. }
    assert (K3 : (if s then - Z.abs z else Z.abs z) = z).
    { apply inject_Z_injective. rewrite <- K2. destruct s; [rewrite inject_Z_opp |]; ring. }
    destruct s, (Z.ltb_spec z 0); try reflexivity; lia. }
  destruct D as [| D | D]; try lia. rewrite Es, (dec_exact (z <? 0) D u m x Bd) in P by (rewrite V; exact ED). rewrite <- E in P.
  apply (C120_data_partial w (inject_Z z * 2 ^ e) (fl z e) Hw' Hf); [right | exact P | rewrite E; reflexivity].
  rewrite abs_value. apply Qle_trans with (2 ^ (-900))%Q; [vm_compute; discriminate |].
  apply Qle_trans with (1 * 2 ^ e)%Q; [rewrite Qmult_1_l; apply Qpower_le_compat_l; [lia | discriminate] |].
  apply Qmult_le_compat_r; [change 1%Q with (inject_Z 1); rewrite <- Zle_Qle; lia | apply Qlt_le_weak, two_pow_pos].
Qed.
Lemma f_inj (x y : f64) : f_val x = f_val y -> x = y.
Proof. intros E. rewrite <- (f_of_val x), <- (f_of_val y). now rewrite E. Qed.
Lemma grid_reread e x : -900 <= e <= 900 -> on_grid e x -> f_reread x = x.
Proof.
  intros He (z & Hz & Hf & E). unfold f_reread, reread. rewrite E, (grid_printed z e Hz He Hf), <- E. apply f_of_val.
Qed.
(** Equal floats are the same but for the sign of zero. *)
Lemma same_float x y : SFeqb x y = true -> x = y \/ exists s t, x = S754_zero s /\ y = S754_zero t.
Proof.
  unfold SFeqb. destruct x as [s | s | | s m e], y as [t | t | | t n k]; cbn [SFcompare]; try discriminate;
    try (intros _; right; eauto; fail); try (destruct s, t; try discriminate; intros; left; reflexivity).
  all: try (destruct s; discriminate). all: try (destruct t; discriminate).
  intros H. left. destruct s, t; try discriminate.
  all: destruct (Z.compare_spec e k) as [-> | L | L]; try discriminate.
  all: change (Pos.compare_cont Eq m n) with (Pos.compare m n) in H; destruct (Pos.compare_spec m n) as [-> | L | L]; try discriminate; reflexivity.
Qed.
Lemma add_zero z e t : in_range z -> -1074 <= e <= 971 -> SFadd b_prec b_emax (fl z e) (S754_zero t) = fl z e.
Proof.
  intros R He. destruct (Z.eq_dec z 0) as [-> | Nz]; [rewrite fl_zero; destruct t; reflexivity |].
  destruct (fl_parts z e R He Nz) as (m & x & E & _). rewrite E. reflexivity.
Qed.
Lemma grid_adds_up e l : -900 <= e <= 900 -> Forall (on_grid e) l -> adds_up l.
Proof.
  intros He H i x y d Hx Hy Q. rewrite Forall_forall in H.
  destruct (H x (nth_error_In _ _ Hx)) as (a & Ha & _ & Ea). destruct (H y (nth_error_In _ _ Hy)) as (b & Hb & _ & Eb).
  apply f_inj. rewrite f_plus_val, Ea, Eb. change (num_same (num_minus y x) d) with (SFeqb (f_val (num_minus y x)) (f_val d)) in Q.
  rewrite f_minus_val, Ea, Eb in Q. change (@num_minus b64 BArith) with (SFsub b_prec b_emax) in Q. change (@num_plus b64 BArith) with (SFadd b_prec b_emax).
  assert (Ra : in_range a) by (unfold in_range; lia). assert (Rb : in_range b) by (unfold in_range; lia). assert (Rc : in_range (b - a)) by (unfold in_range; lia).
  rewrite fl_sub in Q by (auto; lia). destruct (same_float _ _ Q) as [<- | (s & t & E1 & ->)].
  - rewrite fl_add; auto; [f_equal; lia | replace (a + (b - a)) with b by lia; exact Rb | lia].
  - rewrite add_zero by (auto; lia). f_equal. destruct (Z.eq_dec (b - a) 0) as [| N]; [lia |].
    destruct (fl_parts (b - a) e Rc ltac:(lia) N) as (m & k & E2 & _). rewrite E2 in E1. discriminate E1.
Qed.
(** A factor 1 changes no number. *)
Lemma mul_comm x y : SFmul b_prec b_emax x y = SFmul b_prec b_emax y x.
Proof.
  destruct x as [s | s | | s m e], y as [t | t | | t n k]; cbn [SFmul]; try reflexivity; try (rewrite xorb_comm; reflexivity).
  rewrite xorb_comm, Pos.mul_comm, Z.add_comm. reflexivity.
Qed.
Lemma times_one (x : f64) : num_times x (num_of_Z 1) = x.
Proof.
  apply f_inj. rewrite f_times_val. change (f_val (num_of_Z 1)) with (fl 1 0). change (@num_times b64 BArith) with (SFmul b_prec b_emax).
  destruct x as [x V]. cbn [f_val proj1_sig]. unfold is_float in V. destruct x as [s | s | | s m e].
  - destruct s; vm_compute; reflexivity.
  - destruct s; vm_compute; reflexivity.
  - reflexivity.
  - cbn [valid_binary] in V. pose proof (bounded_inv m e V) as (R1 & R2 & _).
    assert (E : S754_finite s m e = fl (if s then Zneg m else Zpos m) e).
    { pose proof V as B. unfold bounded, canonical_mantissa in B. rewrite andb_true_iff in B. destruct B as (C & L). apply Zeq_bool_eq in C.
      assert (R : in_range (if s then Zneg m else Zpos m)) by (unfold in_range; destruct s; cbn [Z.abs]; lia).
      destruct (fl_parts (if s then Zneg m else Zpos m) e R R1 ltac:(destruct s; discriminate)) as (n & k & E & Lk & En & Ek). rewrite E.
      replace (Z.abs (if s then Zneg m else Zpos m)) with (Zpos m) in * by (destruct s; reflexivity).
      change (Zpos (digits2_pos m)) with (dg (Zpos m)) in C. 
      rewrite C in Ek. subst k. rewrite Z.sub_diag, Z.pow_0_r, Z.mul_1_r in En. injection En as ->. destruct s; reflexivity. }
    rewrite E, mul_comm. rewrite fl_mul.
    + rewrite Z.mul_1_l. reflexivity.
    + lia.
    + destruct s; discriminate.
    + unfold in_range. lia.
    + unfold in_range. destruct s; cbn [Z.abs]; lia.
    + unfold in_range. destruct s; cbn [Z.abs Z.mul]; lia.
    + lia.
Qed.
