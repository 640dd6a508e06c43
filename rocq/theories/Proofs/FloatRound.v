(** Rounding in Coq.Floats.SpecFloat depends on the value only, and gives the
    nearest number: facts for the reading of decimal numbers. *)
From Coq Require Import List NArith ZArith Bool Lia Floats.SpecFloat.
From Verif Require Import Spec.Binary64 Spec.LinspaceSpec Proofs.FloatExact.
Local Open Scope Z_scope.
Local Notation dg := Zdigits2.
Local Notation ex := (fexp b_prec b_emax).

(** ** Where a fraction lies *)
Definition loc (r B : Z) : location := if r =? 0 then loc_Exact else loc_Inexact (2 * r ?= B).
Definition at_rec (A B : Z) : shr_record := shr_record_of_loc (A / B) (loc (A mod B) B).

Lemma rec_m m l : shr_m (shr_record_of_loc m l) = m.
Proof. destruct l as [| []]; reflexivity. Qed.
Lemma rec_loc m l : loc_of_shr_record (shr_record_of_loc m l) = l.
Proof. destruct l as [| []]; reflexivity. Qed.

Definition half_bit (m : Z) : bool := Z.odd m.
Lemma shr_1_nonneg m r s : 0 <= m -> shr_1 (Build_shr_record m r s) = Build_shr_record (m / 2) (Z.odd m) (r || s).
Proof.
  intros Hm. destruct m as [| p |]; [reflexivity | | lia].
  destruct p as [p | p |]; unfold shr_1; [| | reflexivity].
  - change (Zpos p~1) with (2 * Zpos p + 1). replace ((2 * Zpos p + 1) / 2) with (Zpos p); [reflexivity |].
    apply (Z.div_unique _ 2 _ 1); lia.
  - change (Zpos p~0) with (2 * Zpos p). replace (2 * Zpos p / 2) with (Zpos p); [reflexivity |].
    apply (Z.div_unique _ 2 _ 0); lia.
Qed.
Lemma shr_1_at A B : 0 < B -> 0 <= A -> shr_1 (at_rec A B) = at_rec A (B * 2).
Proof.
  intros HB HA. pose proof (Z.div_pos A B HA HB) as Hm.
  pose proof (Z.div_mod A B ltac:(lia)) as Ed. pose proof (Z.mod_pos_bound A B HB) as Hr.
  set (m := A / B) in *. set (r := A mod B) in *.
  pose proof (Z.div_mod m 2 ltac:(lia)) as Em. pose proof (Zmod_odd m) as Od.
  set (m' := m / 2) in *.
  set (b := if Z.odd m then 1 else 0) in Od. rewrite Od in Em.
  assert (D1 : A / (B * 2) = m') by (symmetry; apply (Z.div_unique _ _ _ (b * B + r)); [left; unfold b; destruct (Z.odd m); nia | nia]).
  assert (D2 : A mod (B * 2) = b * B + r) by (symmetry; apply (Z.mod_unique _ _ m'); [left; unfold b; destruct (Z.odd m); nia | nia]).
  unfold at_rec. fold m r. rewrite D1, D2. unfold loc. clear D1 D2.
  destruct (Z.eqb_spec r 0) as [R0 | R0]; [| destruct (2 * r ?= B) eqn:C]; cbn [shr_record_of_loc]; rewrite shr_1_nonneg by exact Hm; fold m'; cbn [orb];
    unfold b; destruct (Z.odd m);
    repeat match goal with |- context [?x =? 0] => destruct (Z.eqb_spec x 0) as [? | ?]; try nia end;
    repeat match goal with |- context [2 * ?x ?= ?y] => destruct (Z.compare_spec (2 * x) y) as [? | ? | ?]; try nia end; reflexivity.
Qed.
Lemma shr_n_at A B p : 0 < B -> 0 <= A -> iter_pos shr_1 p (at_rec A B) = at_rec A (B * 2 ^ Zpos p).
Proof.
  intros HB HA. rewrite iter_nat, <- (positive_nat_Z p). induction (Pos.to_nat p) as [| n IH].
  - cbn [Nat.iter nat_rect]. f_equal. change (2 ^ Z.of_nat 0) with 1. lia.
  - change (Nat.iter (S n) shr_1 (at_rec A B)) with (shr_1 (Nat.iter n shr_1 (at_rec A B))). rewrite IH.
    pose proof (pow_pos (Z.of_nat n) ltac:(lia)). rewrite shr_1_at by nia. f_equal. rewrite Nat2Z.inj_succ, Z.pow_succ_r by lia. lia.
Qed.
Lemma at_rec_ext A B A' B' : 0 < B -> 0 < B' -> A * B' = A' * B -> A / B = A' / B' /\ loc (A mod B) B = loc (A' mod B') B'.
Proof.
  intros HB HB' Q. pose proof (Z.div_mod A B ltac:(lia)) as E1. pose proof (Z.mod_pos_bound A B HB) as H1.
  pose proof (Z.div_mod A' B' ltac:(lia)) as E2. pose proof (Z.mod_pos_bound A' B' HB') as H2.
  set (m := A / B) in *. set (r := A mod B) in *. set (m' := A' / B') in *. set (r' := A' mod B') in *.
  assert (Em : B * B' * (m - m') = r' * B - r * B') by nia.
  assert (r * B' < B * B' /\ r' * B < B * B') by nia.
  assert (Dm : m = m') by (assert (0 < B * B') by nia; nia).
  split; [exact Dm |]. assert (Er : r' * B = r * B') by nia. unfold loc.
  destruct (Z.eqb_spec r 0) as [-> | Nr], (Z.eqb_spec r' 0) as [-> | Nr']; try reflexivity; try nia.
  f_equal. destruct (Z.compare_spec (2 * r) B), (Z.compare_spec (2 * r') B'); try reflexivity; nia.
Qed.

(** ** The last steps of rounding, from the exponent on *)
Definition settle (s : bool) (m e : Z) : b64 :=
  let '(mrs, e'') := shr_fexp b_prec b_emax m e loc_Exact in
  match shr_m mrs with
  | Z0 => S754_zero s
  | Zpos m => if Zle_bool e'' (b_emax - b_prec) then S754_finite s m e'' else S754_infinity s
  | _ => S754_nan
  end.
(** The value A/B * 2^e rounded at the exponent e. *)
Definition fin (s : bool) (A B e : Z) : b64 := settle s (round_nearest_even (A / B) (loc (A mod B) B)) e.
Lemma fin_ext s A B A' B' e : 0 < B -> 0 < B' -> A * B' = A' * B -> fin s A B e = fin s A' B' e.
Proof. intros HB HB' Q. unfold fin. destruct (at_rec_ext A B A' B' HB HB' Q) as (-> & ->). reflexivity. Qed.
Lemma round_at s A B E : 0 < B -> 0 <= A -> E <= ex (dg (A / B) + E) ->
  binary_round_aux b_prec b_emax s (A / B) E (loc (A mod B) B) = fin s A (B * 2 ^ (ex (dg (A / B) + E) - E)) (ex (dg (A / B) + E)).
Proof.
  intros HB HA HE. unfold binary_round_aux, fin, settle. set (ef := ex (dg (A / B) + E)) in *.
  assert (S1 : shr_fexp b_prec b_emax (A / B) E (loc (A mod B) B) = (at_rec A (B * 2 ^ (ef - E)), ef)).
  { unfold shr_fexp. fold ef. fold (at_rec A B). destruct (ef - E) as [| n | n] eqn:D; [| | lia]; cbn [shr].
    - f_equal; [f_equal; change (2 ^ 0) with 1; lia | lia].
    - rewrite shr_n_at by assumption. f_equal. lia. }
  rewrite S1. unfold at_rec at 1 2. rewrite rec_m, rec_loc. reflexivity.
Qed.

(** ** Powers with any exponent *)
Definition pw (b z : Z) : Z := b ^ Z.max 0 z.
Lemma pw_pos b z : 0 < b -> 0 < pw b z. Proof. intros. apply Z.pow_pos_nonneg; lia. Qed.
Lemma pw_shift b x y : 0 < b -> x <= y -> pw b y * pw b (- x) = b ^ (y - x) * (pw b x * pw b (- y)).
Proof. intros Hb H. unfold pw. rewrite <- !Z.pow_add_r by lia. f_equal. lia. Qed.
Lemma pw_inv b x : 0 < b -> pw b x = b ^ x * pw b (- x) \/ x < 0.
Proof. intros Hb. destruct (Z_lt_ge_dec x 0); [now right | left]. unfold pw. rewrite <- Z.pow_add_r by lia. f_equal. lia. Qed.

(** N/D lies in the binade below 2^g. *)
Definition is_mag (N D g : Z) : Prop :=
  pw 2 (g - 1) * D <= N * pw 2 (1 - g) /\ N * pw 2 (- g) < pw 2 g * D.
(** The fraction N/D at the exponent E. *)
Definition num_at (N E : Z) : Z := N * pw 2 (- E).
Definition den_at (D E : Z) : Z := D * pw 2 E.

Lemma dg_bound z : 0 < z -> 2 ^ (dg z - 1) <= z < 2 ^ dg z.
Proof. intros H. rewrite dg_log by exact H. pose proof (Z.log2_spec z H) as Q. replace (Z.log2 z + 1 - 1) with (Z.log2 z) by lia. exact Q. Qed.
Lemma dg_nonneg z : 0 <= z -> 0 <= dg z.
Proof. intros H. destruct (Z.eq_dec z 0) as [-> | N]; [reflexivity |]. rewrite dg_log by lia. pose proof (Z.log2_nonneg z). lia. Qed.
(** 2^a / 2^b compared, in products. *)
Lemma pw2_le a b X Y : 0 < X -> 0 < Y -> a <= b -> pw 2 b * X <= Y * pw 2 (- b) -> pw 2 a * X <= Y * pw 2 (- a).
Proof.
  intros HX HY L H. pose proof (pw_shift 2 a b ltac:(lia) L) as S. pose proof (pow_pos (b - a) ltac:(lia)).
  pose proof (pw_pos 2 a ltac:(lia)). pose proof (pw_pos 2 b ltac:(lia)). pose proof (pw_pos 2 (- a) ltac:(lia)). pose proof (pw_pos 2 (- b) ltac:(lia)).
  assert (pw 2 b * pw 2 (- a) * X <= Y * pw 2 (- b) * pw 2 (- a)) by nia.
  rewrite S in *. assert (pw 2 a * X * pw 2 (- b) <= 2 ^ (b - a) * (pw 2 a * X * pw 2 (- b))) by (assert (0 < pw 2 a * X * pw 2 (- b)) by nia; nia).
  assert (pw 2 a * X * pw 2 (- b) <= Y * pw 2 (- a) * pw 2 (- b)) by nia. nia.
Qed.
Lemma mag_unique N D g h : 0 < N -> 0 < D -> is_mag N D g -> is_mag N D h -> g = h.
Proof.
  assert (K : forall g h, 0 < N -> 0 < D -> is_mag N D g -> is_mag N D h -> g <= h).
  { intros a b HN HD (A1 & A2) (B1 & B2). destruct (Z_le_gt_dec a b) as [L | L]; [exact L |].
    replace (1 - a) with (- (a - 1)) in A1 by lia. pose proof (pw2_le b (a - 1) D N HD HN ltac:(lia) A1). nia. }
  intros HN HD A B. apply Z.le_antisymm; apply K; assumption.
Qed.
(** The digits of the whole part at E. *)
Lemma mag_floor N D E : 0 < N -> 0 < D -> 0 < num_at N E / den_at D E -> is_mag N D (dg (num_at N E / den_at D E) + E).
Proof.
  intros HN HD HM. unfold num_at, den_at in *. set (M := N * pw 2 (- E) / (D * pw 2 E)) in *.
  pose proof (pw_pos 2 E ltac:(lia)) as P1. pose proof (pw_pos 2 (- E) ltac:(lia)) as P2.
  assert (HB : 0 < D * pw 2 E) by nia.
  pose proof (Z.mul_div_le (N * pw 2 (- E)) (D * pw 2 E) HB) as L1. fold M in L1.
  pose proof (Z.mul_succ_div_gt (N * pw 2 (- E)) (D * pw 2 E) HB) as L2. fold M in L2.
  pose proof (dg_bound M HM) as (B1 & B2). pose proof (dg_nonneg M ltac:(lia)). assert (Hd : 1 <= dg M) by (rewrite dg_log by lia; pose proof (Z.log2_nonneg M); lia).
  set (d := dg M) in *. split.
  - replace (1 - (d + E)) with (- (d - 1 + E)) by lia. replace (d + E - 1) with (d - 1 + E) by lia.
    pose proof (pw_shift 2 E (d - 1 + E) ltac:(lia) ltac:(lia)) as S. replace (d - 1 + E - E) with (d - 1) in S by lia.
    pose proof (pw_pos 2 (d - 1 + E) ltac:(lia)). pose proof (pw_pos 2 (- (d - 1 + E)) ltac:(lia)).
    apply (Z.mul_le_mono_pos_r _ _ (pw 2 (- E))); [lia |].
    replace (pw 2 (d - 1 + E) * D * pw 2 (- E)) with (2 ^ (d - 1) * (D * pw 2 E) * pw 2 (- (d - 1 + E))) by nia.
    assert (2 ^ (d - 1) * (D * pw 2 E) <= N * pw 2 (- E)) by nia. nia.
  - pose proof (pw_shift 2 E (d + E) ltac:(lia) ltac:(lia)) as S. replace (d + E - E) with d in S by lia.
    pose proof (pw_pos 2 (d + E) ltac:(lia)). pose proof (pw_pos 2 (- (d + E)) ltac:(lia)).
    apply (Z.mul_lt_mono_pos_r (pw 2 (- E))); [lia |].
    replace (pw 2 (d + E) * D * pw 2 (- E)) with (2 ^ d * (D * pw 2 E) * pw 2 (- (d + E))) by nia.
    assert (N * pw 2 (- E) < 2 ^ d * (D * pw 2 E)) by nia. nia.
Qed.
(** N/D rounded, with the exponent of its binade. *)
Definition rnd (s : bool) (N D g : Z) : b64 := fin s (num_at N (ex g)) (den_at D (ex g)) (ex g).
Lemma at_shift N D E F : E <= F -> num_at N E * den_at D F = num_at N F * (den_at D E * 2 ^ (F - E)).
Proof. intros L. unfold num_at, den_at. transitivity (N * D * (pw 2 F * pw 2 (- E))); [ring |]. rewrite (pw_shift 2 E F) by lia. ring. Qed.
Lemma ex_floor N D E g : 0 < N -> 0 < D -> is_mag N D g -> E <= ex g -> ex (dg (num_at N E / den_at D E) + E) = ex g.
Proof.
  intros HN HD HG HE. pose proof (pw_pos 2 E ltac:(lia)) as P1. pose proof (pw_pos 2 (- E) ltac:(lia)) as P2.
  assert (HB : 0 < den_at D E) by (unfold den_at; nia). assert (HA : 0 < num_at N E) by (unfold num_at; nia).
  pose proof (Z.div_pos (num_at N E) (den_at D E) ltac:(lia) HB) as HM.
  destruct (Z.eq_dec (num_at N E / den_at D E) 0) as [M0 | M0].
  - rewrite M0. cbn [Zdigits2]. apply Z.div_small_iff in M0; [| lia]. destruct M0 as [(_ & M0) | M0]; [| lia].
    assert (g <= E).
    { destruct (Z_le_gt_dec g E) as [L | L]; [exact L |]. destruct HG as (G1 & _). replace (1 - g) with (- (g - 1)) in G1 by lia.
      pose proof (pw2_le E (g - 1) D N HD HN ltac:(lia) G1) as Q. unfold num_at, den_at in M0. lia. }
    rewrite !ex_eq in *. lia.
  - f_equal. apply (mag_unique N D); auto. apply mag_floor; auto. lia.
Qed.
Lemma round_any s N D E g : 0 < N -> 0 < D -> is_mag N D g -> E <= ex g ->
  binary_round_aux b_prec b_emax s (num_at N E / den_at D E) E (loc (num_at N E mod den_at D E) (den_at D E)) = rnd s N D g.
Proof.
  intros HN HD HG HE. pose proof (pw_pos 2 E ltac:(lia)) as P1. pose proof (pw_pos 2 (- E) ltac:(lia)) as P2.
  pose proof (pw_pos 2 (ex g) ltac:(lia)) as P3.
  assert (HB : 0 < den_at D E) by (unfold den_at; nia). assert (HA : 0 < num_at N E) by (unfold num_at; nia).
  pose proof (ex_floor N D E g HN HD HG HE) as Q.
  rewrite round_at; [| exact HB | lia | rewrite Q; exact HE]. rewrite Q. unfold rnd. apply fin_ext.
  - pose proof (pow_pos (ex g - E) ltac:(lia)). nia.
  - unfold den_at. nia.
  - apply at_shift. exact HE.
Qed.
(** Rounding depends on the value only. *)
Lemma rnd_ext s N D N' D' g : 0 < D -> 0 < D' -> N * D' = N' * D -> rnd s N D g = rnd s N' D' g.
Proof.
  intros HD HD' Q. unfold rnd. pose proof (pw_pos 2 (ex g) ltac:(lia)). apply fin_ext; unfold num_at, den_at; [nia | nia |].
  transitivity (N * D' * (pw 2 (- ex g) * pw 2 (ex g))); [ring |]. rewrite Q. ring.
Qed.
Lemma mag_ext N D N' D' g : 0 < D -> 0 < D' -> N * D' = N' * D -> is_mag N D g -> is_mag N' D' g.
Proof.
  intros HD HD' Q (A & B). split.
  - apply (Z.mul_le_mono_pos_r _ _ D); [lia |]. replace (N' * pw 2 (1 - g) * D) with (N * pw 2 (1 - g) * D') by (rewrite <- Z.mul_shuffle0, Q; ring).
    replace (pw 2 (g - 1) * D' * D) with (pw 2 (g - 1) * D * D') by ring. now apply Z.mul_le_mono_pos_r.
  - apply (Z.mul_lt_mono_pos_r D); [lia |]. replace (N' * pw 2 (- g) * D) with (N * pw 2 (- g) * D') by (rewrite <- Z.mul_shuffle0, Q; ring).
    replace (pw 2 g * D' * D) with (pw 2 g * D * D') by ring. now apply Z.mul_lt_mono_pos_r.
Qed.
Lemma mag_exists N D : 0 < N -> 0 < D -> exists g, is_mag N D g.
Proof.
  intros HN HD. exists (dg (num_at N (- dg D) / den_at D (- dg D)) + - dg D). apply mag_floor; auto.
  unfold num_at, den_at. pose proof (dg_bound D HD) as (_ & Q). pose proof (dg_nonneg D ltac:(lia)).
  replace (pw 2 (- dg D)) with 1 by (unfold pw; rewrite Z.max_l by lia; reflexivity).
  replace (pw 2 (- - dg D)) with (2 ^ dg D) by (unfold pw; f_equal; lia).
  apply Z.div_str_pos. nia.
Qed.

(** ** Reading a decimal number *)
Lemma round_pos s m E g : is_mag (Zpos m * pw 2 E) (pw 2 (- E)) g -> binary_round b_prec b_emax s m E = rnd s (Zpos m * pw 2 E) (pw 2 (- E)) g.
Proof.
  intros HG. pose proof (pw_pos 2 E ltac:(lia)) as P1. pose proof (pw_pos 2 (- E) ltac:(lia)) as P2.
  assert (Hat : forall F, F <= E -> num_at (Zpos m * pw 2 E) F = Zpos m * 2 ^ (E - F) * den_at (pw 2 (- E)) F /\ 0 < den_at (pw 2 (- E)) F).
  { intros F L. unfold num_at, den_at. pose proof (pw_shift 2 F E ltac:(lia) L). pose proof (pw_pos 2 F ltac:(lia)). split; nia. }
  assert (Eg : dg (Zpos m) + E = g).
  { apply (mag_unique (Zpos m * pw 2 E) (pw 2 (- E))); auto; try nia.
    destruct (Hat E ltac:(lia)) as (A1 & A2). rewrite Z.sub_diag, Z.mul_1_r in A1.
    pose proof (mag_floor (Zpos m * pw 2 E) (pw 2 (- E)) E ltac:(nia) P2) as Q. rewrite A1, Z.div_mul in Q by lia. apply Q. lia. }
  unfold binary_round. change (Zpos (digits2_pos m)) with (dg (Zpos m)). rewrite Eg.
  set (F := Z.min E (ex g)).
  assert (Sh : shl_align m E (ex g) = (Z.to_pos (Zpos m * 2 ^ (E - F)), F)).
  { unfold F. destruct (Z_le_gt_dec (ex g) E) as [L | L].
    - pose proof (align_mul m E (ex g) L) as Q. assert (R : snd (shl_align m E (ex g)) = ex g).
      { unfold shl_align. destruct (ex g - E) as [| d | d] eqn:D; cbn [snd]; lia. }
      destruct (shl_align m E (ex g)) as [a b]. cbn [fst snd] in Q, R. rewrite Z.min_r by lia. rewrite <- Q, R. reflexivity.
    - unfold shl_align. destruct (ex g - E) as [| d | d] eqn:D; try lia. rewrite Z.min_l by lia. rewrite Z.sub_diag, Z.mul_1_r. reflexivity. }
  rewrite Sh. pose proof (pow_pos (E - F) ltac:(unfold F; lia)) as P3. rewrite Z2Pos.id by nia.
  destruct (Hat F ltac:(unfold F; lia)) as (A1 & A2).
  rewrite <- (round_any s _ _ F g) by (try assumption; try nia; unfold F; lia).
  rewrite A1, Z.div_mul, Z.mod_mul by lia. reflexivity.
Qed.
Lemma new_loc r d : 0 < d -> 0 <= r < d -> new_location d r = loc r d.
Proof.
  intros Hd Hr.
  assert (Z0 : Zeq_bool r 0 = (r =? 0)) by (destruct (Z.eqb_spec r 0) as [-> | N]; [reflexivity | apply not_true_is_false; intros Q; apply Zeq_bool_eq in Q; lia]).
  unfold new_location, loc. destruct (Z.even d) eqn:Ev; unfold new_location_even, new_location_odd; rewrite Z0; [reflexivity |]. destruct (r =? 0); [reflexivity |]. f_equal.
  assert (2 * r <> d). { intros Q. rewrite <- Q, Z.even_mul in Ev. discriminate Ev. }
  destruct (Z.compare_spec (2 * r + 1) d), (Z.compare_spec (2 * r) d); try reflexivity; lia.
Qed.
Lemma div_pos s p d g : is_mag (Zpos p) (Zpos d) g -> SFdiv b_prec b_emax (S754_finite s p 0) (S754_finite false d 0) = rnd s (Zpos p) (Zpos d) g.
Proof.
  intros HG. cbn [SFdiv]. unfold SFdiv_core_binary. rewrite !Z.add_0_r, Z.sub_0_r.
  set (e' := Z.min (ex (dg (Zpos p) - dg (Zpos d))) 0).
  assert (Le : e' <= ex g).
  { assert (dg (Zpos p) - dg (Zpos d) <= g).
    { pose proof (dg_bound (Zpos p) ltac:(lia)) as (B1 & B2). pose proof (dg_bound (Zpos d) ltac:(lia)) as (D1 & D2). destruct HG as (_ & G).
      destruct (Z_le_gt_dec (dg (Zpos p) - dg (Zpos d)) g) as [L | L]; [exact L |]. exfalso.
      pose proof (dg_nonneg (Zpos p) ltac:(lia)). pose proof (dg_nonneg (Zpos d) ltac:(lia)).
      set (a := dg (Zpos p)) in *. set (b := dg (Zpos d)) in *.
      assert (Hpw : pw 2 g * 2 ^ b <= 2 ^ (a - 1) * pw 2 (- g)).
      { unfold pw. assert (Ha : 1 <= a) by (unfold a; rewrite dg_log by lia; pose proof (Z.log2_nonneg (Zpos p)); lia).
        rewrite <- !Z.pow_add_r by lia. apply Z.pow_le_mono_r; lia. }
      pose proof (pw_pos 2 g ltac:(lia)). pose proof (pw_pos 2 (- g) ltac:(lia)). nia. }
    unfold e'. rewrite !ex_eq. lia. }
  replace (0 - e') with (- e') by lia.
  assert (Em : match - e' with Zpos _ => Z.shiftl (Zpos p) (- e') | Z0 => Zpos p | Zneg _ => 0 end = num_at (Zpos p) e').
  { unfold num_at, pw. destruct (- e') as [| k | k] eqn:K; [change (2 ^ Z.max 0 0) with 1; lia | | unfold e' in K; lia]. rewrite Z.shiftl_mul_pow2 by lia. reflexivity. }
  rewrite Em. assert (Ed : Zpos d = den_at (Zpos d) e').
  { unfold den_at, pw. rewrite Z.max_l by (unfold e'; lia). lia. }
  pose proof (round_any s (Zpos p) (Zpos d) e' g ltac:(lia) ltac:(lia) HG Le) as R. rewrite <- Ed in R.
  pose proof (Z.mod_pos_bound (num_at (Zpos p) e') (Zpos d) ltac:(lia)) as Hb.
  unfold Z.div, Z.modulo in R, Hb. destruct (Z.div_eucl (num_at (Zpos p) e') (Zpos d)) as [q r].
  rewrite new_loc by lia. replace (xorb s false) with s by (destruct s; reflexivity). exact R.
Qed.
(** [float] of m * 10^e is the rounding of its value. *)
Lemma of_dec_rnd s p e g : is_mag (Zpos p * pw 10 e) (pw 10 (- e)) g -> b_of_dec s (Zpos p) e = rnd s (Zpos p * pw 10 e) (pw 10 (- e)) g.
Proof.
  intros HG. unfold b_of_dec. destruct (Z.leb_spec 0 e) as [L | L].
  - replace (pw 10 (- e)) with 1 in * by (unfold pw; rewrite Z.max_l by lia; reflexivity).
    replace (pw 10 e) with (10 ^ e) in * by (unfold pw; f_equal; lia).
    pose proof (Z.pow_pos_nonneg 10 e ltac:(lia) L) as Hp.
    assert (Ep : Zpos (p * Z.to_pos (10 ^ e)) = Zpos p * 10 ^ e) by (rewrite Pos2Z.inj_mul, Z2Pos.id by lia; reflexivity).
    pose proof (round_pos s (p * Z.to_pos (10 ^ e))%positive 0 g) as R. change (pw 2 0) with 1 in R. change (pw 2 (- 0)) with 1 in R. rewrite Ep, Z.mul_1_r in R.
    apply R. exact HG.
  - replace (pw 10 e) with 1 in * by (unfold pw; rewrite Z.max_l by lia; reflexivity).
    replace (pw 10 (- e)) with (10 ^ (- e)) in * by (unfold pw; f_equal; lia).
    pose proof (Z.pow_pos_nonneg 10 (- e) ltac:(lia) ltac:(lia)) as Hp. rewrite Z.mul_1_r in *.
    rewrite <- (Z2Pos.id (10 ^ (- e))) in HG by lia. rewrite (div_pos s p _ g HG). rewrite Z2Pos.id by lia. reflexivity.
Qed.
Theorem of_dec_value s p p' e e' : Zpos p * pw 10 e * pw 10 (- e') = Zpos p' * pw 10 e' * pw 10 (- e) ->
  b_of_dec s (Zpos p) e = b_of_dec s (Zpos p') e'.
Proof.
  intros Q. pose proof (pw_pos 10 e ltac:(lia)). pose proof (pw_pos 10 (- e) ltac:(lia)). pose proof (pw_pos 10 e' ltac:(lia)). pose proof (pw_pos 10 (- e') ltac:(lia)).
  destruct (mag_exists (Zpos p * pw 10 e) (pw 10 (- e)) ltac:(nia) ltac:(lia)) as (g & G).
  rewrite (of_dec_rnd s p e g G), (of_dec_rnd s p' e' g).
  - apply rnd_ext; auto. 
  - eapply mag_ext; [| | exact Q | exact G]; auto.
Qed.

(** ** The nearest number *)
Lemma settle_canon s m e : bounded b_prec b_emax m e = true -> settle s (Zpos m) e = S754_finite s m e.
Proof.
  unfold bounded, canonical_mantissa. rewrite andb_true_iff. intros (C & L). apply Zeq_bool_eq in C.
  unfold settle, shr_fexp. change (dg (Zpos m)) with (Zpos (digits2_pos m)). rewrite C, Z.sub_diag. cbn [shr shr_record_of_loc shr_m]. rewrite L. reflexivity.
Qed.
(** At the exponent [e] the whole part is [m] and the rest less than a half, or
    one less and the rest more than a half. *)
Lemma fin_near s A B m e : 0 < B -> 2 * Z.abs (A - Zpos m * B) < B -> fin s A B e = settle s (Zpos m) e.
Proof.
  intros HB H. unfold fin. f_equal. destruct (Z_le_gt_dec (Zpos m * B) A) as [L | L].
  - assert (D : A / B = Zpos m) by (symmetry; apply (Z.div_unique _ _ _ (A - Zpos m * B)); [left; lia | lia]).
    assert (M : A mod B = A - Zpos m * B) by (symmetry; apply (Z.mod_unique _ _ (Zpos m)); [left; lia | lia]).
    rewrite D, M. unfold loc. destruct (Z.eqb_spec (A - Zpos m * B) 0); [reflexivity |].
    destruct (Z.compare_spec (2 * (A - Zpos m * B)) B); try lia. reflexivity.
  - assert (D : A / B = Zpos m - 1) by (symmetry; apply (Z.div_unique _ _ _ (A - (Zpos m - 1) * B)); [left; lia | lia]).
    assert (M : A mod B = A - (Zpos m - 1) * B) by (symmetry; apply (Z.mod_unique _ _ (Zpos m - 1)); [left; lia | lia]).
    rewrite D, M. unfold loc. destruct (Z.eqb_spec (A - (Zpos m - 1) * B) 0); [lia |].
    destruct (Z.compare_spec (2 * (A - (Zpos m - 1) * B)) B); try lia. cbn [round_nearest_even]. lia.
Qed.
Lemma bounded_inv m e : bounded b_prec b_emax m e = true ->
  -1074 <= e <= 971 /\ Zpos m < 2 ^ 53 /\ (e = -1074 \/ 2 ^ 52 <= Zpos m).
Proof.
  unfold bounded, canonical_mantissa. rewrite andb_true_iff. intros (C & L). apply Zeq_bool_eq in C. apply Zle_bool_imp_le in L.
  change (b_emax - b_prec) with 971 in L. change (Zpos (digits2_pos m)) with (dg (Zpos m)) in C. rewrite ex_eq in C.
  pose proof (dg_bound (Zpos m) ltac:(lia)) as (B1 & B2). pose proof (dg_nonneg (Zpos m) ltac:(lia)).
  split; [lia |]. split.
  - apply Z.lt_le_trans with (2 ^ dg (Zpos m)); [lia | apply Z.pow_le_mono_r; lia].
  - destruct (Z.eq_dec e (-1074)); [now left | right]. replace (dg (Zpos m)) with 53 in B1 by lia. exact B1.
Qed.
(** A value closer to m * 2^e than half its distance to the next numbers (a
    quarter of 2^e below a power of two) is rounded to it. *)
Theorem nearest s N D g m e : 0 < N -> 0 < D -> is_mag N D g -> bounded b_prec b_emax m e = true ->
  4 * Z.abs (num_at N e - Zpos m * den_at D e) < (if Zpos m =? 2 ^ 52 then 1 else 2) * den_at D e ->
  rnd s N D g = S754_finite s m e.
Proof.
  intros HN HD HG Bd H. pose proof (bounded_inv m e Bd) as (R1 & R2 & R3).
  pose proof (pw_pos 2 e ltac:(lia)) as P1. assert (HB : 0 < den_at D e) by (unfold den_at; nia).
  assert (Case : ex g = e \/ (ex g = e - 1 /\ Zpos m = 2 ^ 52 /\ num_at N e < Zpos m * den_at D e)).
  { set (A := num_at N e) in *. set (B := den_at D e) in *.
    assert (Hmag : forall h, 1 <= h -> 2 ^ (h - 1) * B <= A < 2 ^ h * B -> g = h + e).
    { intros h Hh (Q1 & Q2). apply (mag_unique N D); auto. split.
      - replace (1 - (h + e)) with (- (h - 1 + e)) by lia. replace (h + e - 1) with (h - 1 + e) by lia.
        pose proof (pw_shift 2 e (h - 1 + e) ltac:(lia) ltac:(lia)) as S. replace (h - 1 + e - e) with (h - 1) in S by lia.
        pose proof (pw_pos 2 (- e) ltac:(lia)). pose proof (pw_pos 2 (- (h - 1 + e)) ltac:(lia)). unfold A, B, num_at, den_at in Q1.
        apply (Z.mul_le_mono_pos_r _ _ (pw 2 (- e))); [lia |].
        replace (pw 2 (h - 1 + e) * D * pw 2 (- e)) with (2 ^ (h - 1) * (D * pw 2 e) * pw 2 (- (h - 1 + e))) by nia. nia.
      - pose proof (pw_shift 2 e (h + e) ltac:(lia) ltac:(lia)) as S. replace (h + e - e) with h in S by lia.
        pose proof (pw_pos 2 (- e) ltac:(lia)). pose proof (pw_pos 2 (- (h + e)) ltac:(lia)). unfold A, B, num_at, den_at in Q2.
        apply (Z.mul_lt_mono_pos_r (pw 2 (- e))); [lia |].
        replace (pw 2 (h + e) * D * pw 2 (- e)) with (2 ^ h * (D * pw 2 e) * pw 2 (- (h + e))) by nia. nia. }
    assert (Hup : forall h, 0 <= h -> A < 2 ^ h * B -> g <= h + e).
    { intros h Hh Q2. destruct (Z_le_gt_dec g (h + e)) as [L | L]; [exact L |]. exfalso. destruct HG as (G1 & _).
      replace (1 - g) with (- (g - 1)) in G1 by lia. pose proof (pw2_le (h + e) (g - 1) D N HD HN ltac:(lia) G1) as G2.
      pose proof (pw_shift 2 e (h + e) ltac:(lia) ltac:(lia)) as S. replace (h + e - e) with h in S by lia.
      pose proof (pw_pos 2 (- e) ltac:(lia)). pose proof (pw_pos 2 (- (h + e)) ltac:(lia)). unfold A, B, num_at, den_at in Q2.
      assert (pw 2 (h + e) * D * pw 2 (- e) <= N * pw 2 (- (h + e)) * pw 2 (- e)) by nia.
      assert (pw 2 (h + e) * D * pw 2 (- e) = 2 ^ h * (D * pw 2 e) * pw 2 (- (h + e))) by nia. nia. }
    change (2 ^ 53) with 9007199254740992 in *. change (2 ^ 52) with 4503599627370496 in *.
    assert (Top : A < 9007199254740992 * B) by (destruct (Zpos m =? 4503599627370496); nia).
    destruct R3 as [-> | R3].
    - left. assert (G : g <= 53 + -1074) by (apply (Hup 53); [lia | exact Top]). rewrite ex_eq. lia.
    - destruct (Z_le_gt_dec (4503599627370496 * B) A) as [L | L].
      + left. assert (G : g = 53 + e) by (apply Hmag; [lia | change (2 ^ (53 - 1)) with 4503599627370496; change (2 ^ 53) with 9007199254740992; lia]). rewrite ex_eq. lia.
      + destruct (Z.eqb_spec (Zpos m) 4503599627370496) as [Em | Em]; [| exfalso; nia].
        assert (G : g = 52 + e).
        { apply Hmag; [lia |]. change (2 ^ (52 - 1)) with 2251799813685248. change (2 ^ 52) with 4503599627370496. nia. }
        destruct (Z.eq_dec e (-1074)) as [-> | Ne]; [left; rewrite ex_eq; lia | right]. rewrite ex_eq. split; [lia |]. split; [exact Em |]. lia. }
  unfold rnd. destruct Case as [-> | (-> & Em & Lt)].
  - rewrite (fin_near s _ _ m e) by (try exact HB; destruct (Zpos m =? 2 ^ 52); lia). now apply settle_canon.
  - rewrite Em in *. rewrite Z.eqb_refl in H.
    pose proof (pw_pos 2 (e - 1) ltac:(lia)) as P3. assert (HB' : 0 < den_at D (e - 1)) by (unfold den_at; nia).
    pose proof (at_shift N D (e - 1) e ltac:(lia)) as S. replace (e - (e - 1)) with 1 in S by lia. change (2 ^ 1) with 2 in S.
    assert (Q : 2 * Z.abs (num_at N (e - 1) - Zpos (2 ^ 53) * den_at D (e - 1)) < den_at D (e - 1)).
    { change (Zpos (2 ^ 53)) with 9007199254740992. change (2 ^ 52) with 4503599627370496 in *.
      set (A := num_at N e) in *. set (B := den_at D e) in *. set (A' := num_at N (e - 1)) in *. set (B' := den_at D (e - 1)) in *.
      assert (K : (A' - 9007199254740992 * B') * B = (A - 4503599627370496 * B) * (B' * 2)) by nia.
      assert (A' - 9007199254740992 * B' < 0) by nia.
      assert (2 * (9007199254740992 * B' - A') * B < B' * B) by nia. nia. }
    rewrite (fin_near s _ _ _ _ HB' Q).
    assert (Em' : m = (2 ^ 52)%positive) by (apply Pos2Z.inj; exact Em). subst m.
    unfold settle, shr_fexp. change (dg (Zpos (2 ^ 53))) with 54. cbn [shr_record_of_loc].
    replace (ex (54 + (e - 1)) - (e - 1)) with 1 by (rewrite ex_eq; unfold bounded, canonical_mantissa in Bd; rewrite andb_true_iff in Bd; destruct Bd as (C & _); apply Zeq_bool_eq in C; change (Zpos (digits2_pos (2 ^ 52))) with 53 in C; rewrite ex_eq in C; lia).
    cbn [shr iter_pos]. change (shr_1 (Build_shr_record (Zpos (2 ^ 53)) false false)) with (Build_shr_record (Zpos (2 ^ 52)) false false). cbn [shr_m].
    replace (e - 1 + 1) with e by lia. change (b_emax - b_prec) with 971. rewrite (proj2 (Z.leb_le e 971)) by lia. reflexivity.
Qed.
