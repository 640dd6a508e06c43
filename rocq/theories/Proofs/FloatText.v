(** The text of a binary64 number: what [float] makes of the digits that [repr]
    and ["%.<p>g"] print. *)
From Coq Require Import List NArith ZArith Bool Lia Decimal DecimalPos DecimalN Floats.SpecFloat.
From Verif Require Import Py.Str Py.Res Py.Num Spec.TextSpec Spec.Records Spec.Binary64 Proofs.StrLemmas Proofs.NumLemmas Proofs.FloatRound Proofs.FloatDec.
Import ListNotations.
Local Open Scope Z_scope.

(** ** The value of digits *)
Definition dstep (a : Z) (c : chr) : Z := a * 10 + (Z.of_N c - 48).
Definition dv (s : str) : Z := fold_left dstep s 0.
Lemma dv_from s : forall a, fold_left dstep s a = a * 10 ^ Z.of_nat (length s) + dv s.
Proof.
  unfold dv. induction s as [| c s IH]; intros a; [cbn; lia |]. cbn [fold_left length]. rewrite IH, (IH (dstep 0 c)).
  rewrite Nat2Z.inj_succ, Z.pow_succ_r by lia. unfold dstep. ring.
Qed.
Lemma dv_app a b : dv (a ++ b) = dv a * 10 ^ Z.of_nat (length b) + dv b.
Proof. unfold dv at 1. rewrite fold_left_app. fold (dv a). apply dv_from. Qed.
Lemma dv_zeros n : dv (repeat 48%N n) = 0.
Proof. induction n as [| n IH]; [reflexivity |]. cbn [repeat]. change (48%N :: repeat 48%N n) with ([48%N] ++ repeat 48%N n). rewrite dv_app, IH. reflexivity. Qed.
Notation digs := (forallb is_digit).
Lemma digs_uint s : digs s = true -> exists d, s = str_of_uint d.
Proof.
  induction s as [| c s IH]; intros H; [exists Decimal.Nil; reflexivity |]. cbn [forallb] in H. apply andb_true_iff in H as (Hc & Hs).
  destruct (IH Hs) as (d & ->). apply is_digit_range in Hc.
  assert (K : (c = 48 \/ c = 49 \/ c = 50 \/ c = 51 \/ c = 52 \/ c = 53 \/ c = 54 \/ c = 55 \/ c = 56 \/ c = 57)%N) by lia.
  destruct K as [-> | [-> | [-> | [-> | [-> | [-> | [-> | [-> | [-> | ->]]]]]]]]];
    [exists (D0 d) | exists (D1 d) | exists (D2 d) | exists (D3 d) | exists (D4 d) | exists (D5 d) | exists (D6 d) | exists (D7 d) | exists (D8 d) | exists (D9 d)]; reflexivity.
Qed.
Lemma acc_dv d : forall acc, Zpos (Pos.of_uint_acc d acc) = fold_left dstep (str_of_uint d) (Zpos acc).
Proof.
  induction d as [| d IH | d IH | d IH | d IH | d IH | d IH | d IH | d IH | d IH | d IH]; intros acc; [reflexivity | ..];
    cbn [Pos.of_uint_acc str_of_uint fold_left]; rewrite IH; f_equal; unfold dstep; cbn [Z.of_N]; lia.
Qed.
Lemma uint_dv d : Z.of_N (N.of_uint d) = dv (str_of_uint d).
Proof.
  induction d as [| d IH | d IH | d IH | d IH | d IH | d IH | d IH | d IH | d IH | d IH]; [reflexivity | exact IH | ..];
    unfold dv; cbn [N.of_uint Pos.of_uint str_of_uint fold_left Z.of_N]; rewrite acc_dv; reflexivity.
Qed.
Lemma nb_len d : Decimal.nb_digits d = length (str_of_uint d).
Proof. induction d; cbn [Decimal.nb_digits str_of_uint length]; congruence. Qed.
Lemma digits_dv s : digs s = true -> digits s = Some (dv s, Z.of_nat (length s)).
Proof.
  intros H. destruct s as [| c s]; [reflexivity |]. destruct (digs_uint (c :: s) H) as (d & E). unfold digits. rewrite E.
  rewrite uint_of_str_false by (intros ->; discriminate E). rewrite uint_dv, nb_len. destruct (str_of_uint d) eqn:Q; [discriminate E |]. reflexivity.
Qed.
Lemma dv_bounds s : digs s = true -> 0 <= dv s < 10 ^ Z.of_nat (length s).
Proof.
  induction s as [| c s IH]; intros H; [cbn; lia |]. cbn [forallb] in H. apply andb_true_iff in H as (Hc & Hs). apply is_digit_range in Hc.
  change (c :: s) with ([c] ++ s). rewrite dv_app. specialize (IH Hs). change (dv [c]) with (Z.of_N c - 48). rewrite app_length. cbn [length]. rewrite Nat2Z.inj_add.
  rewrite Z.pow_add_r by lia. change (10 ^ Z.of_nat 1) with 10. pose proof (Z.pow_pos_nonneg 10 (Z.of_nat (length s)) ltac:(lia) ltac:(lia)). nia.
Qed.
Lemma nzhead_D0 d x : nzhead d <> D0 x.
Proof. induction d; cbn [nzhead]; try discriminate. exact IHd. Qed.
Lemma to_uint_D0 p x : N.to_uint (Npos p) <> D0 x.
Proof.
  intros E. pose proof (DecimalN.Unsigned.of_to (Npos p)) as Q. pose proof (DecimalN.Unsigned.to_of (N.to_uint (Npos p))) as R. rewrite Q in R.
  unfold unorm in R. pose proof (nzhead_D0 (N.to_uint (Npos p))) as Z.
  destruct (nzhead (N.to_uint (Npos p))) as [| y | y | y | y | y | y | y | y | y | y] eqn:Y; try congruence.
  - rewrite R in Q. discriminate Q.
Qed.
Lemma dec_digs p : digs (dec_of_Z (Zpos p)) = true.
Proof. apply str_of_uint_digits. Qed.
Lemma dec_dv p : dv (dec_of_Z (Zpos p)) = Zpos p.
Proof. cbn [dec_of_Z]. unfold dec_of_N. rewrite <- uint_dv. rewrite (DecimalN.Unsigned.of_to (Npos p)). reflexivity. Qed.
Lemma dec_head p : exists c t, dec_of_Z (Zpos p) = c :: t /\ (49 <= c <= 57)%N.
Proof.
  pose proof (dec_digs p) as D. cbn [dec_of_Z] in *. unfold dec_of_N in *. pose proof (N_to_uint_nonnil (Npos p)) as Nn. pose proof (to_uint_D0 p) as N0.
  destruct (N.to_uint (Npos p)) as [| x | x | x | x | x | x | x | x | x | x]; [congruence | congruence | ..]; eexists _, _; (split; [reflexivity | lia]).
Qed.
Lemma dec_len p n : 1 <= n -> 10 ^ (n - 1) <= Zpos p < 10 ^ n -> Z.of_nat (length (dec_of_Z (Zpos p))) = n.
Proof.
  intros Hn (H1 & H2). destruct (dec_head p) as (c & t & E & Hc). pose proof (dec_digs p) as D. pose proof (dec_dv p) as V.
  rewrite E in *. set (L := Z.of_nat (length (c :: t))) in *. assert (HL : L = Z.of_nat (length t) + 1) by (unfold L; cbn [length]; lia).
  pose proof (dv_bounds _ D) as (_ & B2). fold L in B2.
  assert (B1 : 10 ^ (L - 1) <= Zpos p).
  { rewrite <- V. change (c :: t) with ([c] ++ t). rewrite dv_app. change (dv [c]) with (Z.of_N c - 48). replace (L - 1) with (Z.of_nat (length t)) by lia.
    cbn [forallb] in D. apply andb_true_iff in D as (_ & D). pose proof (dv_bounds t D). pose proof (Z.pow_pos_nonneg 10 (Z.of_nat (length t)) ltac:(lia) ltac:(lia)). nia. }
  rewrite V in B2.
  assert (L - 1 < n) by (apply (Z.pow_lt_mono_r_iff 10); lia). assert (n - 1 < L) by (apply (Z.pow_lt_mono_r_iff 10); lia). lia.
Qed.

(** ** Parts of a number *)
Lemma split_none p s : forallb (fun c => negb (p c)) s = true -> split_at p s = (s, None).
Proof.
  induction s as [| c s IH]; intros H; [reflexivity |]. cbn [forallb] in H. apply andb_true_iff in H as (H1 & H2). apply negb_true_iff in H1.
  change (split_at p (c :: s)) with (if p c then ([], Some s) else let (a, b) := split_at p s in (c :: a, b)). rewrite H1, (IH H2). reflexivity.
Qed.
Lemma split_some p s x t : forallb (fun c => negb (p c)) s = true -> p x = true -> split_at p (s ++ x :: t) = (s, Some t).
Proof.
  intros H Hx. induction s as [| c s IH].
  - change (split_at p ([] ++ x :: t)) with (if p x then ([], Some t) else let (a, b) := split_at p t in (x :: a, b)). rewrite Hx. reflexivity.
  - cbn [forallb] in H. apply andb_true_iff in H as (H1 & H2). apply negb_true_iff in H1.
    change (split_at p ((c :: s) ++ x :: t)) with (if p c then ([], Some (s ++ x :: t)) else let (a, b) := split_at p (s ++ x :: t) in (c :: a, b)). rewrite H1, (IH H2). reflexivity.
Qed.
Lemma digs_app a b : digs (a ++ b) = true <-> digs a = true /\ digs b = true.
Proof. rewrite forallb_app, andb_true_iff. tauto. Qed.
Definition is_e (c : chr) : bool := (c =? 101)%N || (c =? 69)%N.
Lemma digit_not_e c : is_digit c = true -> negb (is_e c) = true.
Proof. intros H. apply is_digit_range in H. unfold is_e. destruct (N.eqb_spec c 101); [lia |]. destruct (N.eqb_spec c 69); [lia |]. reflexivity. Qed.
Lemma digit_not_dot c : is_digit c = true -> negb (N.eqb c_dot c) = true.
Proof. intros H. apply is_digit_range in H. destruct (N.eqb_spec c_dot c) as [E | E]; [unfold c_dot in E; lia | reflexivity]. Qed.
Lemma digs_impl p s : (forall c, is_digit c = true -> p c = true) -> digs s = true -> forallb p s = true.
Proof. intros H. apply forallb_impl. exact H. Qed.

Definition mant (ip : str) (fp : option str) : str := ip ++ match fp with Some f => c_dot :: f | None => [] end.
Definition full (ip : str) (fp : option str) (k : option Z) : str := mant ip fp ++ match k with Some k => 101%N :: exp_str k | None => [] end.
Definition opt (o : option str) : str := match o with Some s => s | None => [] end.
Lemma digit_strict s t c : is_digit c = true -> str_eqb (lower (c :: s)) (105%N :: t) = false /\ str_eqb (lower (c :: s)) (110%N :: t) = false.
Proof.
  intros H. apply is_digit_range in H.
  assert (Lc : lower_chr c = c). { unfold lower_chr. destruct (N.leb_spec 65 c); [lia | reflexivity]. }
  cbn [lower map str_eqb]. rewrite Lc. destruct (N.eqb_spec c 105); [lia |]. destruct (N.eqb_spec c 110); [lia |]. split; reflexivity.
Qed.
Lemma exp_digits k : exists t, digs t = true /\ t <> [] /\ dv t = Z.abs k /\ exp_str k = (if k <? 0 then c_minus else c_plus) :: t.
Proof.
  exists ((if Z.abs k <? 10 then [48%N] else []) ++ dec_of_Z (Z.abs k)). 
  assert (D : digs (dec_of_Z (Z.abs k)) = true /\ dv (dec_of_Z (Z.abs k)) = Z.abs k).
  { destruct (Z.abs k) as [| p | p] eqn:E; [split; reflexivity | split; [apply dec_digs | apply dec_dv] | lia]. }
  destruct D as (D1 & D2). split; [apply digs_app; split; [destruct (_ <? 10); reflexivity | exact D1] |].
  split; [pose proof (dec_of_Z_nonnil (Z.abs k)) as Q; destruct (_ <? 10); [discriminate | exact Q] |].
  split; [rewrite dv_app, D2; destruct (_ <? 10); reflexivity |]. unfold exp_str. destruct (k <? 0); reflexivity.
Qed.
Lemma int_exp k : int_of_str (exp_str k) = Some k /\ strip (exp_str k) = exp_str k.
Proof.
  destruct (exp_digits k) as (t & T1 & T2 & T3 & ->).
  assert (Sp : strip ((if k <? 0 then c_minus else c_plus) :: t) = (if k <? 0 then c_minus else c_plus) :: t).
  { apply no_sp_strip. cbn [forallb]. rewrite (digs_impl nonsp t digit_nonsp T1). destruct (k <? 0); reflexivity. }
  split; [| exact Sp]. unfold int_of_str. rewrite Sp. destruct (digs_uint t T1) as (d & ->).
  assert (Nd : d <> Decimal.Nil) by (intros ->; apply T2; reflexivity). rewrite <- uint_dv in T3.
  destruct (Z.ltb_spec k 0).
  - change (c_minus =? c_minus)%N with true. cbv iota. rewrite uint_of_str_false by exact Nd. cbn [option_map]. f_equal. lia.
  - change (c_plus =? c_minus)%N with false. change (c_plus =? c_plus)%N with true. cbv iota. rewrite uint_of_str_false by exact Nd. cbn [option_map]. f_equal. lia.
Qed.
Lemma parse_full s ip fp k : digs ip = true -> ip <> [] -> digs (opt fp) = true ->
  b_parse_abs s (full ip fp k) = Some (b_of_dec s (dv (ip ++ opt fp)) (match k with Some k => k | None => 0 end - Z.of_nat (length (opt fp)))).
Proof.
  intros Di Ni Df. destruct ip as [| c0 ip0] eqn:Eip; [congruence |]. rewrite <- Eip in *.
  assert (Hc : is_digit c0 = true) by (rewrite Eip in Di; cbn [forallb] in Di; now apply andb_true_iff in Di).
  assert (Hd : exists r, full ip fp k = c0 :: r) by (unfold full, mant; rewrite Eip; eexists; reflexivity). destruct Hd as (r & Hr).
  unfold b_parse_abs.
  destruct (digit_strict r [110; 102]%N c0 Hc) as (X1 & _). destruct (digit_strict r [110; 102; 105; 110; 105; 116; 121]%N c0 Hc) as (X2 & _).
  destruct (digit_strict r [97; 110]%N c0 Hc) as (_ & X3).
  change (lit "inf") with [105; 110; 102]%N. change (lit "infinity") with [105; 110; 102; 105; 110; 105; 116; 121]%N. change (lit "nan") with [110; 97; 110]%N.
  rewrite <- Hr in X1, X2, X3. cbv zeta. rewrite X1, X2, X3. cbn [orb]. clear X1 X2 X3 Hr r.
  assert (Me : forallb (fun c => negb (is_e c)) (mant ip fp) = true).
  { unfold mant. rewrite forallb_app, (digs_impl _ ip digit_not_e Di). destruct fp as [f |]; [| reflexivity]. cbn [forallb]. cbn [opt] in Df. rewrite (digs_impl _ f digit_not_e Df). reflexivity. }
  assert (Ed : forallb (fun c => negb (N.eqb c_dot c)) ip = true) by (apply (digs_impl _ ip digit_not_dot Di)).
  assert (Sd : split_at (N.eqb c_dot) (mant ip fp) = (ip, fp)).
  { unfold mant. destruct fp as [f |]; [apply split_some; [exact Ed | apply N.eqb_refl] | rewrite app_nil_r; apply split_none; exact Ed]. }
  match goal with |- context [split_at ?p (full ip fp k)] => change (split_at p (full ip fp k)) with (split_at is_e (full ip fp k)) end.
  assert (V : dv (ip ++ opt fp) = dv ip * 10 ^ Z.of_nat (length (opt fp)) + dv (opt fp)) by apply dv_app.
  assert (Ln : Z.of_nat (length ip) + Z.of_nat (length (opt fp)) =? 0 = false) by (apply Z.eqb_neq; rewrite Eip; cbn [length]; lia).
  assert (Se : split_at is_e (full ip fp k) = (mant ip fp, match k with Some k => Some (exp_str k) | None => None end)).
  { unfold full. destruct k as [k |]; [apply split_some; [exact Me | reflexivity] | rewrite app_nil_r; apply split_none; exact Me]. }
  rewrite Se. destruct k as [k |].
  - rewrite Sd. fold (opt fp). rewrite (digits_dv ip Di), (digits_dv (opt fp) Df).
    destruct (int_exp k) as (I1 & I2). rewrite I1, I2, Ln. rewrite (proj2 (str_eqb_eq (exp_str k) (exp_str k)) eq_refl). cbn [negb orb]. rewrite V. reflexivity.
  - rewrite Sd. fold (opt fp). rewrite (digits_dv ip Di), (digits_dv (opt fp) Df), Ln. cbn [orb]. rewrite V. reflexivity.
Qed.

(** ** The layouts *)
Lemma drop_zeros_split s : exists j, s = drop_zeros s ++ repeat 48%N j.
Proof.
  destruct (rstrip_by_decomp (N.eqb 48%N) s) as (b & Hb & E & _). exists (length b). rewrite E at 1. unfold drop_zeros. f_equal.
  clear E. induction b as [| c b IH]; [reflexivity |]. cbn [forallb] in Hb. apply andb_true_iff in Hb as (Hc & Hb). apply N.eqb_eq in Hc. subst c. change (repeat 48%N (length (48%N :: b))) with (48%N :: repeat 48%N (length b)). f_equal. exact (IH Hb).
Qed.
Lemma value_eq m' q i j e' E : 0 <= i -> 0 <= j -> m' * 10 ^ j = q * 10 ^ i -> E = e' + i - j ->
  m' * pw 10 e' * pw 10 (- E) = q * pw 10 E * pw 10 (- e').
Proof.
  intros Hi Hj V ->. pose proof (Z.pow_pos_nonneg 10 j ltac:(lia) Hj).
  assert (P : 10 ^ i * (pw 10 e' * pw 10 (- (e' + i - j))) = 10 ^ j * (pw 10 (e' + i - j) * pw 10 (- e'))).
  { unfold pw. rewrite <- !Z.pow_add_r by lia. f_equal. lia. }
  apply (Z.mul_cancel_r _ _ (10 ^ j)); [lia |].
  transitivity (m' * 10 ^ j * (pw 10 e' * pw 10 (- (e' + i - j)))); [ring |]. rewrite V.
  transitivity (q * (10 ^ i * (pw 10 e' * pw 10 (- (e' + i - j))))); [ring |]. rewrite P. ring.
Qed.
Lemma dv_cut n s f j : skipn n s = f ++ repeat 48%N j -> dv (firstn n s ++ f) * 10 ^ Z.of_nat j = dv s.
Proof. intros E. rewrite <- (firstn_skipn n s) at 2. rewrite E, app_assoc, (dv_app (firstn n s ++ f)), dv_zeros, repeat_length. lia. Qed.
Ltac ll := unfold str, chr in *; lia.
Lemma show_parts p q k lim zero : 1 <= p -> 10 ^ (p - 1) <= Zpos q < 10 ^ p ->
  exists ip fp x i j, show (Zpos q) p k lim zero = full ip fp x /\ digs ip = true /\ ip <> [] /\ digs (opt fp) = true /\ 0 <= i /\ 0 <= j /\
    dv (ip ++ opt fp) * 10 ^ j = Zpos q * 10 ^ i /\ k - p + 1 = match x with Some x => x | None => 0 end - Z.of_nat (length (opt fp)) + i - j.
Proof.
  intros Hp Hq. unfold show. pose proof (dec_digs q) as Dd. pose proof (dec_dv q) as Dv. pose proof (dec_len q p Hp Hq) as Dl.
  set (ds := dec_of_Z (Zpos q)) in *.
  assert (Dz : forall n, digs (repeat 48%N n) = true) by (intros n; induction n as [| n IH]; [reflexivity | exact IH]).
  destruct ((-4 <=? k) && (k <? lim)) eqn:Fx.
  - destruct (Z.ltb_spec k 0) as [Kn | Kn].
    + set (z := repeat 48%N (Z.to_nat (- k - 1)) ++ ds). destruct (drop_zeros_split z) as (j & Ej). set (f := drop_zeros z) in *.
      assert (Dzz : digs z = true) by (unfold z; apply digs_app; auto). assert (Vz : dv z = Zpos q) by (unfold z; rewrite dv_app, dv_zeros, Dv; ll).
      assert (Df : digs f = true /\ digs (repeat 48%N j) = true) by (apply digs_app; rewrite <- Ej; exact Dzz). destruct Df as (Df & _).
      assert (Vf : dv f * 10 ^ Z.of_nat j = Zpos q) by (rewrite <- Vz, Ej, dv_app, dv_zeros, repeat_length; ll).
      assert (Lz : Z.of_nat (length f) + Z.of_nat j = - k - 1 + p).
      { rewrite <- Nat2Z.inj_add. assert (Q : length z = (length f + j)%nat) by (rewrite Ej at 1; rewrite app_length, repeat_length; reflexivity). rewrite <- Q. unfold z. rewrite app_length, repeat_length. ll. }
      exists (lit "0"), (Some f), None, 0, (Z.of_nat j). split; [| split; [reflexivity | split; [discriminate |]]].
      * unfold full, mant, with_frac. rewrite app_nil_r. destruct f as [| c f']; [cbn [dv fold_left] in Vf; change (dv []) with 0 in Vf; ll | reflexivity].
      * cbn [opt]. split; [exact Df |]. split; [ll |]. split; [ll |]. split; [| ll].
        rewrite dv_app. change (dv (lit "0")) with 0. rewrite Z.mul_0_l, Z.add_0_l, Z.pow_0_r. ll.
    + set (n := Z.to_nat (k + 1)). destruct (drop_zeros_split (skipn n ds)) as (j & Ej). set (f := drop_zeros (skipn n ds)) in *.
      set (ip := firstn n ds ++ repeat 48%N (n - length (firstn n ds))).
      assert (Dfs : digs (firstn n ds) = true /\ digs (skipn n ds) = true) by (apply digs_app; rewrite firstn_skipn; exact Dd). destruct Dfs as (D1 & D2).
      assert (Dip : digs ip = true) by (unfold ip; apply digs_app; auto).
      assert (Df : digs f = true) by (rewrite Ej in D2; now apply digs_app in D2).
      assert (Lip : length ip = n) by (unfold ip; rewrite app_length, repeat_length, firstn_length; ll).
      assert (Nip : ip <> []) by (intros Q; rewrite Q in Lip; cbn [length] in Lip; ll).
      assert (Val : exists i, 0 <= i /\ dv (ip ++ f) * 10 ^ Z.of_nat j = Zpos q * 10 ^ i /\ k - p + 1 = - Z.of_nat (length f) + i - Z.of_nat j).
      { destruct (Nat.le_gt_cases n (length ds)) as [L | L].
        - exists 0. split; [ll |]. assert (Eip : ip = firstn n ds). { unfold ip. rewrite firstn_length, Nat.min_l, Nat.sub_diag by exact L. apply app_nil_r. }
          split.
          + rewrite Eip, Z.pow_0_r, Z.mul_1_r. rewrite <- Dv. apply dv_cut. exact Ej.
          + assert (Q : length (skipn n ds) = (length f + j)%nat) by (rewrite Ej at 1; rewrite app_length, repeat_length; reflexivity). rewrite skipn_length in Q. ll.
        - exists (k + 1 - p). assert (Es : skipn n ds = []) by (apply skipn_all2; ll). assert (Ef : f = []) by (unfold f; rewrite Es; reflexivity).
          rewrite Es, Ef in Ej. cbn [app] in Ej. destruct j as [| j]; [| discriminate Ej]. split; [ll |]. rewrite Ef, app_nil_r. split; [| cbn [length]; ll].
          unfold ip. rewrite firstn_all2 by ll. rewrite dv_app, dv_zeros, repeat_length, Dv, Z.pow_0_r, Z.mul_1_r, Z.add_0_r. f_equal. f_equal. ll. }
      destruct Val as (i & Hi & V & L). fold ip. destruct f as [| c f'] eqn:Ff.
      * rewrite app_nil_r in V. destruct zero.
        -- exists ip, (Some (lit "0")), None, (i + 1), (Z.of_nat j). 
           split; [unfold full, mant, with_frac; rewrite app_nil_r; reflexivity |]. split; [exact Dip |]. split; [exact Nip |]. split; [reflexivity |]. split; [ll |]. split; [ll |].
           cbn [opt]. change (Z.of_nat (length (lit "0"))) with 1. split; [| cbn [length] in L; ll].
           rewrite dv_app. change (dv (lit "0")) with 0. change (10 ^ Z.of_nat (length (lit "0"))) with 10. rewrite Z.pow_add_r by ll. change (10 ^ 1) with 10. ll.
        -- exists ip, None, None, i, (Z.of_nat j). split; [unfold full, mant, with_frac; rewrite !app_nil_r; reflexivity |]. split; [exact Dip |]. split; [exact Nip |]. split; [reflexivity |].
           split; [ll |]. split; [ll |]. cbn [opt]. rewrite app_nil_r. split; [exact V | cbn [length] in *; ll].
      * exists ip, (Some (c :: f')), None, i, (Z.of_nat j). split; [unfold full, mant, with_frac; rewrite app_nil_r; reflexivity |]. split; [exact Dip |]. split; [exact Nip |]. split; [exact Df |].
        split; [ll |]. split; [ll |]. cbn [opt]. split; [exact V | ll].
  - destruct (drop_zeros_split (skipn 1 ds)) as (j & Ej). set (f := drop_zeros (skipn 1 ds)) in *.
    assert (Dfs : digs (firstn 1 ds) = true /\ digs (skipn 1 ds) = true) by (apply digs_app; rewrite firstn_skipn; exact Dd). destruct Dfs as (D1 & D2).
    assert (Df : digs f = true) by (rewrite Ej in D2; now apply digs_app in D2).
    assert (Nip : firstn 1 ds <> []) by (destruct ds; [cbn [length] in Dl; ll | discriminate]).
    assert (V : dv (firstn 1 ds ++ f) * 10 ^ Z.of_nat j = Zpos q).
    { rewrite <- Dv. apply dv_cut. exact Ej. }
    assert (L : Z.of_nat (length f) + Z.of_nat j = p - 1).
    { assert (Q : length (skipn 1 ds) = (length f + j)%nat) by (rewrite Ej at 1; rewrite app_length, repeat_length; reflexivity). rewrite skipn_length in Q. ll. }
    destruct f as [| c f'] eqn:Ff.
    + exists (firstn 1 ds), None, (Some k), 0, (Z.of_nat j). split; [unfold full, mant, with_frac; rewrite app_nil_r; reflexivity |]. split; [exact D1 |]. split; [exact Nip |]. split; [reflexivity |].
      split; [ll |]. split; [ll |]. cbn [opt]. split; [rewrite V, Z.pow_0_r; ll | cbn [length] in *; ll].
    + exists (firstn 1 ds), (Some (c :: f')), (Some k), 0, (Z.of_nat j). split; [unfold full, mant, with_frac; rewrite <- !app_assoc; reflexivity |]. split; [exact D1 |]. split; [exact Nip |]. split; [exact Df |].
      split; [ll |]. split; [ll |]. cbn [opt]. split; [rewrite V, Z.pow_0_r; ll | ll].
Qed.
(** What [float] makes of shown digits. *)
Lemma parse_show s p q k lim zero : 1 <= p -> 10 ^ (p - 1) <= Zpos q < 10 ^ p ->
  b_parse_abs s (show (Zpos q) p k lim zero) = Some (b_of_dec s (Zpos q) (k - p + 1)).
Proof.
  intros Hp Hq. destruct (show_parts p q k lim zero Hp Hq) as (ip & fp & x & i & j & E & D1 & N1 & D2 & Hi & Hj & V & K).
  rewrite E, (parse_full s ip fp x D1 N1 D2). f_equal.
  assert (Pos : 0 < dv (ip ++ opt fp)).
  { pose proof (Z.pow_pos_nonneg 10 i ltac:(lia) Hi). pose proof (Z.pow_pos_nonneg 10 j ltac:(lia) Hj). nia. }
  destruct (dv (ip ++ opt fp)) as [| m |]; try lia. apply of_dec_value. exact (value_eq (Zpos m) (Zpos q) i j _ _ Hi Hj V K).
Qed.

(** ** Characters *)
Definition numchr (c : chr) : bool := is_digit c || existsb (N.eqb c) [46; 101; 43; 45]%N.
Lemma digs_numchr s : digs s = true -> forallb numchr s = true.
Proof. apply digs_impl. intros c H. unfold numchr. rewrite H. reflexivity. Qed.
Lemma full_chars ip fp x : digs ip = true -> digs (opt fp) = true -> forallb numchr (full ip fp x) = true.
Proof.
  intros D1 D2. unfold full, mant. rewrite !forallb_app, (digs_numchr ip D1). cbn [andb].
  assert (A : forallb numchr match fp with Some f => c_dot :: f | None => [] end = true).
  { destruct fp as [f |]; [| reflexivity]. cbn [forallb]. cbn [opt] in D2. rewrite (digs_numchr f D2). reflexivity. }
  rewrite A. destruct x as [x |]; [| reflexivity]. destruct (exp_digits x) as (t & T1 & _ & _ & ->). cbn [forallb andb]. rewrite (digs_numchr t T1). destruct (x <? 0); reflexivity.
Qed.
Lemma show_chars p q k lim zero : 1 <= p -> 10 ^ (p - 1) <= Zpos q < 10 ^ p ->
  forallb numchr (show (Zpos q) p k lim zero) = true /\ exists c t, show (Zpos q) p k lim zero = c :: t /\ is_digit c = true.
Proof.
  intros Hp Hq. destruct (show_parts p q k lim zero Hp Hq) as (ip & fp & x & i & j & E & D1 & N1 & D2 & _). rewrite E. split; [now apply full_chars |].
  destruct ip as [| c ip]; [congruence |]. exists c. eexists. split; [reflexivity |]. cbn [forallb] in D1. now apply andb_true_iff in D1.
Qed.
Lemma numchr_props c : numchr c = true -> is_space c = false /\ c <> c_comma /\ c <> c_rbrace /\ c <> 1%N.
Proof.
  unfold numchr. rewrite orb_true_iff. intros H. assert (K : (43 <= c <= 101)%N /\ c <> 44%N).
  { destruct H as [H | H]; [apply is_digit_range in H; lia |]. apply existsb_exists in H as (y & Y & Q). apply N.eqb_eq in Q. subst y. cbn [In] in Y. lia. }
  destruct K as (K1 & K2). split; [apply is_space_false; lia |]. repeat split; intros ->; unfold c_comma, c_rbrace in *; lia.
Qed.
Lemma numchr_token s : s <> [] -> forallb numchr s = true -> token_ok s.
Proof.
  intros Ns H. rewrite forallb_forall in H. split; [split; [exact Ns |] |].
  - apply Forall_forall. intros c Hc. apply numchr_props. now apply H.
  - repeat split; intros Hc; apply H, numchr_props in Hc; tauto.
Qed.
Lemma numchr_strip s : forallb numchr s = true -> strip s = s.
Proof. intros H. apply no_sp_strip. apply forallb_impl with (p := numchr); [| exact H]. intros c Hc. unfold nonsp. apply numchr_props in Hc as (-> & _). reflexivity. Qed.
Lemma parse_signed s t c r : t = c :: r -> is_digit c = true -> forallb numchr t = true -> b_parse (sign_str s ++ t) = b_parse_abs s t.
Proof.
  intros E Hc Ht. unfold b_parse. rewrite numchr_strip by (rewrite forallb_app, Ht; destruct s; reflexivity).
  destruct s.
  - reflexivity.
  - change (sign_str false ++ t) with t. rewrite E. apply is_digit_range in Hc. destruct (N.eqb_spec c c_minus) as [Q | Q]; [unfold c_minus in Q; lia |]. destruct (N.eqb_spec c c_plus) as [Q' | Q']; [unfold c_plus in Q'; lia |]. reflexivity.
Qed.
