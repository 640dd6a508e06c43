(** Rounding gives numbers of the format, at most half a unit away. *)
From Coq Require Import List NArith ZArith Bool Lia Floats.SpecFloat.
From Verif Require Import Py.Str Py.Num Spec.Binary64 Spec.LinspaceSpec Proofs.FloatExact Proofs.FloatRound.
Import ListNotations.
Local Open Scope Z_scope.

Local Notation dg := Zdigits2.
Local Notation ex := (fexp b_prec b_emax).
Notation valid := (valid_binary b_prec b_emax).

(** Rounding to a whole number. *)
Lemma rne_near A B : 0 < B -> 0 <= A -> 2 * Z.abs (A - round_nearest_even (A / B) (loc (A mod B) B) * B) <= B.
Proof.
  intros HB HA. pose proof (Z.div_mod A B ltac:(lia)) as E. pose proof (Z.mod_pos_bound A B HB) as R. unfold loc.
  destruct (Z.eqb_spec (A mod B) 0) as [Z0 | Z0]; cbn [round_nearest_even]; [nia |].
  destruct (Z.compare_spec (2 * (A mod B)) B); try nia. destruct (Z.even (A / B)); nia.
Qed.
Lemma rne_bounds A B x y : 0 < B -> x * B <= A <= y * B -> x <= round_nearest_even (A / B) (loc (A mod B) B) <= y.
Proof.
  intros HB (H1 & H2). assert (x <= A / B) by (apply Z.div_le_lower_bound; lia). assert (A / B <= y) by (apply Z.div_le_upper_bound; lia).
  pose proof (Z.div_mod A B ltac:(lia)) as E. pose proof (Z.mod_pos_bound A B HB) as R. unfold loc.
  destruct (Z.eqb_spec (A mod B) 0) as [Z0 | Z0]; cbn [round_nearest_even]; [lia |].
  assert (A / B + 1 <= y) by nia. destruct (2 * (A mod B) ?= B); try lia. destruct (Z.even (A / B)); lia.
Qed.
(** The value at the exponent of the result. *)
Lemma at_bounds N D g : 0 < N -> 0 < D -> is_mag N D g ->
  0 < den_at D (ex g) /\ 0 < num_at N (ex g) /\ num_at N (ex g) < 2 ^ 53 * den_at D (ex g) /\ (ex g = -1074 \/ 2 ^ 52 * den_at D (ex g) <= num_at N (ex g)).
Proof.
  intros HN HD (G1 & G2). pose proof (pw_pos 2 (ex g) ltac:(lia)) as P1. pose proof (pw_pos 2 (- ex g) ltac:(lia)) as P2.
  unfold num_at, den_at. split; [nia |]. split; [nia |]. split.
  - assert (L : ex g <= g + 1074 - 1074 \/ True) by auto. clear L.
    pose proof (pw_pos 2 g ltac:(lia)) as P3. pose proof (pw_pos 2 (- g) ltac:(lia)) as P4.
    apply (Z.mul_lt_mono_pos_r (pw 2 (- g))); [exact P4 |].
    apply Z.lt_le_trans with (pw 2 g * D * pw 2 (- ex g)); [nia |].
    replace (2 ^ 53 * (D * pw 2 (ex g)) * pw 2 (- g)) with (D * (2 ^ 53 * pw 2 (ex g) * pw 2 (- g))) by ring.
    replace (pw 2 g * D * pw 2 (- ex g)) with (D * (pw 2 g * pw 2 (- ex g))) by ring. apply Z.mul_le_mono_pos_l; [exact HD |].
    unfold pw. rewrite <- !Z.pow_add_r by lia. apply Z.pow_le_mono_r; [lia |]. rewrite ex_eq. lia.
  - destruct (Z.eq_dec (ex g) (-1074)) as [Q | Q]; [now left | right]. rewrite ex_eq in Q. assert (Eg : ex g = g - 53) by (rewrite ex_eq; lia). rewrite Eg in *.
    pose proof (pw_pos 2 (1 - g) ltac:(lia)) as P4. pose proof (pw_pos 2 (g - 1) ltac:(lia)) as P3.
    apply (Z.mul_le_mono_pos_r _ _ (pw 2 (1 - g))); [exact P4 |].
    assert (S : pw 2 (g - 1) * pw 2 (- (g - 53)) = 2 ^ 52 * pw 2 (g - 53) * pw 2 (1 - g)) by (unfold pw; rewrite <- !Z.pow_add_r by lia; f_equal; lia).
    transitivity (pw 2 (g - 1) * D * pw 2 (- (g - 53))); [apply Z.eq_le_incl; transitivity (D * (2 ^ 52 * pw 2 (g - 53) * pw 2 (1 - g))); [ring |]; rewrite <- S; ring |].
    nia.
Qed.
Definition whole_at (N D g : Z) : Z := let A := num_at N (ex g) in let B := den_at D (ex g) in round_nearest_even (A / B) (loc (A mod B) B).
Lemma whole_bounds N D g : 0 < N -> 0 < D -> is_mag N D g -> 0 <= whole_at N D g <= 2 ^ 53 /\ (ex g = -1074 \/ 2 ^ 52 <= whole_at N D g) /\
  2 * Z.abs (num_at N (ex g) - whole_at N D g * den_at D (ex g)) <= den_at D (ex g).
Proof.
  intros HN HD HG. pose proof (at_bounds N D g HN HD HG) as (A1 & A2 & A3 & A4). unfold whole_at. cbv zeta. split; [| split].
  - apply rne_bounds; [exact A1 | lia].
  - destruct A4 as [A4 | A4]; [now left | right]. apply (rne_bounds _ _ (2 ^ 52) (2 ^ 53)); [exact A1 | lia].
  - apply rne_near; lia.
Qed.
(** The result: the whole number times 2^(ex g), in normal form. *)
Lemma settle_form s M e : 0 <= M <= 2 ^ 53 -> -1074 <= e -> (e = -1074 \/ 2 ^ 52 <= M) ->
  (M = 0 /\ settle s M e = S754_zero s) \/
  (exists m x, settle s M e = (if Zle_bool x 971 then S754_finite s m x else S754_infinity s) /\ e <= x /\ Zpos m * 2 ^ (x - e) = M /\
     canonical_mantissa b_prec b_emax m x = true).
Proof.
  intros HM He HC. destruct M as [| M |]; [left; split; [reflexivity |]; replace e with (-1074) by (change (2 ^ 52) with 4503599627370496 in HC; lia); reflexivity | right | lia].
  assert (Cn : forall m, Zpos m < 2 ^ 53 -> (e = -1074 \/ 2 ^ 52 <= Zpos m) -> ex (dg (Zpos m) + e) = e).
  { intros m Hm Hc. rewrite ex_eq. pose proof (dg_bound (Zpos m) ltac:(lia)) as (D1 & D2). pose proof (dg_lt (Zpos m) ltac:(lia) Hm).
    destruct Hc as [-> | Hc]; [lia |]. assert (dg (Zpos m) = 53) as ->; [| lia].
    assert (~ dg (Zpos m) < 53); [| lia]. intros Q. assert (2 ^ dg (Zpos m) <= 2 ^ 52) by (apply Z.pow_le_mono_r; lia). lia. }
  destruct (Z.eq_dec (Zpos M) (2 ^ 53)) as [E | E].
  - assert (Em : M = (2 ^ 53)%positive) by (apply Pos2Z.inj; exact E). subst M. exists (2 ^ 52)%positive, (e + 1).
    assert (X : ex (54 + e) = e + 1) by (rewrite ex_eq; lia).
    split; [| split; [lia |]; split; [replace (e + 1 - e) with 1 by lia; reflexivity |]].
    + unfold settle, shr_fexp. change (dg (Zpos (2 ^ 53))) with 54. rewrite X. replace (e + 1 - e) with 1 by lia. cbn [shr shr_record_of_loc iter_pos].
      change (shr_1 (Build_shr_record (Zpos (2 ^ 53)) false false)) with (Build_shr_record (Zpos (2 ^ 52)) false false). cbn [shr_m]. reflexivity.
    + unfold canonical_mantissa. change (Zpos (digits2_pos (2 ^ 52))) with 53. replace (53 + (e + 1)) with (54 + e) by lia. rewrite X. apply Zeq_is_eq_bool. reflexivity.
  - exists M, e. specialize (Cn M ltac:(lia) HC). split; [| split; [lia |]; split; [replace (e - e) with 0 by lia; lia |]].
    + unfold settle, shr_fexp. rewrite Cn, Z.sub_diag. cbn [shr shr_record_of_loc shr_m]. reflexivity.
    + unfold canonical_mantissa. change (Zpos (digits2_pos M)) with (dg (Zpos M)). rewrite Cn. apply Zeq_is_eq_bool. reflexivity.
Qed.
Theorem rnd_form s N D g : 0 < N -> 0 < D -> is_mag N D g ->
  (whole_at N D g = 0 /\ rnd s N D g = S754_zero s) \/
  (exists m x, rnd s N D g = (if Zle_bool x 971 then S754_finite s m x else S754_infinity s) /\ ex g <= x /\ Zpos m * 2 ^ (x - ex g) = whole_at N D g /\
     canonical_mantissa b_prec b_emax m x = true).
Proof.
  intros HN HD HG. pose proof (whole_bounds N D g HN HD HG) as (W1 & W2 & _). apply (settle_form s (whole_at N D g) (ex g)); [exact W1 | rewrite ex_eq; lia | exact W2].
Qed.
Theorem rnd_valid s N D g : 0 < N -> 0 < D -> is_mag N D g -> valid (rnd s N D g) = true.
Proof.
  intros HN HD HG. destruct (rnd_form s N D g HN HD HG) as [(_ & ->) | (m & x & -> & _ & _ & C)]; [reflexivity |].
  destruct (Zle_bool x 971) eqn:L; [| reflexivity]. cbn [valid_binary]. unfold bounded. rewrite C. exact L.
Qed.
Lemma of_dec_valid s m e : valid (b_of_dec s m e) = true.
Proof.
  destruct m as [| m | m]; [reflexivity | | reflexivity]. pose proof (pw_pos 10 e ltac:(lia)). pose proof (pw_pos 10 (- e) ltac:(lia)).
  destruct (mag_exists (Zpos m * pw 10 e) (pw 10 (- e)) ltac:(nia) ltac:(lia)) as (g & G). rewrite (of_dec_rnd s m e g G). apply rnd_valid; [nia | lia | exact G].
Qed.
Lemma parse_abs_valid s t x : b_parse_abs s t = Some x -> valid x = true.
Proof.
  unfold b_parse_abs. cbv zeta. destruct (_ || _); [intros [= <-]; reflexivity |]. destruct (str_eqb (lower t) (lit "nan")); [intros [= <-]; reflexivity |].
  destruct (split_at _ t) as [mant ex]. destruct (split_at (N.eqb c_dot) mant) as [ip fp].
  destruct (digits ip) as [[i ni] |]; [| discriminate]. destruct (digits _) as [[f nf] |]; [| discriminate].
  destruct (match ex with Some e => int_of_str e | None => Some 0 end) as [e |]; [| discriminate]. destruct (_ || _); [discriminate |].
  intros E. assert (x = b_of_dec s (i * 10 ^ nf + f) (e - nf)) as -> by congruence. apply of_dec_valid.
Qed.
Lemma parse_valid t x : b_parse t = Some x -> valid x = true.
Proof.
  unfold b_parse. destruct (strip t) as [| c r]; [discriminate |]. destruct (c =? c_minus)%N; [apply parse_abs_valid |]. destruct (c =? c_plus)%N; apply parse_abs_valid.
Qed.
Lemma round_valid s m e : valid (binary_round b_prec b_emax s m e) = true.
Proof.
  pose proof (pw_pos 2 e ltac:(lia)). pose proof (pw_pos 2 (- e) ltac:(lia)).
  destruct (mag_exists (Zpos m * pw 2 e) (pw 2 (- e)) ltac:(nia) ltac:(lia)) as (g & G). rewrite (round_pos s m e g G). apply rnd_valid; [nia | lia | exact G].
Qed.
Lemma normalize_valid z e s : valid (binary_normalize b_prec b_emax z e s) = true.
Proof. destruct z; [reflexivity | apply round_valid | apply round_valid]. Qed.

(** ** Arithmetic *)
Lemma add_valid x y : valid x = true -> valid y = true -> valid (SFadd b_prec b_emax x y) = true.
Proof.
  intros Hx Hy. destruct x as [s | s | | s m e], y as [s' | s' | | s' m' e']; cbn [SFadd]; try reflexivity; try assumption; try (destruct (Bool.eqb _ _); reflexivity).
  apply normalize_valid.
Qed.
Lemma sub_valid x y : valid x = true -> valid y = true -> valid (SFsub b_prec b_emax x y) = true.
Proof.
  intros Hx Hy. destruct x as [s | s | | s m e], y as [s' | s' | | s' m' e']; cbn [SFsub]; try reflexivity; try assumption; try (destruct (Bool.eqb _ _); reflexivity).
  apply normalize_valid.
Qed.
Lemma exact_at N E : 0 < N -> num_at (N * pw 2 E) E / den_at (pw 2 (- E)) E = N /\ num_at (N * pw 2 E) E mod den_at (pw 2 (- E)) E = 0.
Proof.
  intros HN. unfold num_at, den_at. pose proof (pw_pos 2 E ltac:(lia)). pose proof (pw_pos 2 (- E) ltac:(lia)).
  replace (N * pw 2 E * pw 2 (- E)) with (N * (pw 2 (- E) * pw 2 E)) by ring. split; [apply Z.div_mul; nia | apply Z.mod_mul; nia].
Qed.
Lemma mul_valid x y : valid x = true -> valid y = true -> valid (SFmul b_prec b_emax x y) = true.
Proof.
  intros Hx Hy. destruct x as [s | s | | s m e], y as [s' | s' | | s' m' e']; cbn [SFmul]; try reflexivity.
  cbn [valid_binary] in Hx, Hy. pose proof (bounded_inv m e Hx) as (X1 & X2 & X3). pose proof (bounded_inv m' e' Hy) as (Y1 & Y2 & Y3).
  set (E := e + e'). assert (Ep : Zpos (m * m') = Zpos m * Zpos m') by reflexivity.
  pose proof (exact_at (Zpos (m * m')) E ltac:(lia)) as (Q & R).
  pose proof (pw_pos 2 E ltac:(lia)). pose proof (pw_pos 2 (- E) ltac:(lia)).
  assert (G : is_mag (Zpos (m * m') * pw 2 E) (pw 2 (- E)) (dg (Zpos (m * m')) + E)).
  { rewrite <- Q at 2. apply mag_floor; [nia | lia | rewrite Q; lia]. }
  assert (Hm : forall p, 2 ^ 52 <= Zpos p -> 53 <= dg (Zpos p)).
  { intros p Hp. rewrite dg_log by lia. assert (52 <= Z.log2 (Zpos p)) by (apply Z.log2_le_pow2; lia). lia. }
  assert (L : E <= ex (dg (Zpos (m * m')) + E)).
  { rewrite ex_eq. pose proof (dg_mul (Zpos m) (Zpos m') ltac:(lia) ltac:(lia)) as (D & _). rewrite <- Ep in D.
    assert (1 <= dg (Zpos m)) by (rewrite dg_log by lia; pose proof (Z.log2_nonneg (Zpos m)); lia).
    assert (1 <= dg (Zpos m')) by (rewrite dg_log by lia; pose proof (Z.log2_nonneg (Zpos m')); lia).
    destruct X3 as [-> | X3]; [destruct Y3 as [-> | Y3]; [unfold E; lia | apply Hm in Y3; lia] | apply Hm in X3; lia]. }
  assert (P : 0 < Zpos (m * m') * pw 2 E) by nia. pose proof (pw_pos 2 (- E) ltac:(lia)) as P2. pose proof (round_any (xorb s s') _ _ E _ P P2 G L) as F. rewrite Q, R in F. unfold loc in F. cbn [Z.eqb] in F.
  change (0 =? 0) with true in F. cbv iota in F. rewrite F. apply rnd_valid; [exact P | lia | exact G].
Qed.
