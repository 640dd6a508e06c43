(** Printed binary64 numbers read back. *)
From Coq Require Import List NArith ZArith QArith Bool Lia Floats.SpecFloat.
From Verif Require Import Py.Str Py.Res Py.Num Spec.TextSpec Spec.Records Spec.Binary64 Proofs.StrLemmas Proofs.NumLemmas Proofs.FloatRound Proofs.FloatDec Proofs.FloatText Proofs.FloatValid.
Import ListNotations.
Local Open Scope Z_scope.

Lemma shown s q p k lim zero : 1 <= p -> 10 ^ (p - 1) <= q < 10 ^ p ->
  token_ok (sign_str s ++ show q p k lim zero) /\ b_parse (sign_str s ++ show q p k lim zero) = Some (b_of_dec s q (k - p + 1)).
Proof.
  intros Hp Hq. pose proof (Z.pow_pos_nonneg 10 (p - 1) ltac:(lia) ltac:(lia)). destruct q as [| q | q]; try lia.
  destruct (show_chars p q k lim zero Hp Hq) as (C & c & t & E & Dc). split.
  - apply numchr_token; [rewrite E; destruct s; discriminate |]. rewrite forallb_app, C. destruct s; reflexivity.
  - rewrite (parse_signed s _ c t E Dc C). now apply parse_show.
Qed.
Lemma special_tokens s : token_ok (sign_str s ++ lit "inf") /\ token_ok (lit "nan") /\ token_ok (sign_str s ++ lit "0.0") /\ token_ok (sign_str s ++ lit "0").
Proof.
  assert (K : forall t, negb (match t with [] => true | _ => false end) && forallb (fun c => negb (is_space c) && negb (N.eqb c c_comma) && negb (N.eqb c c_rbrace) && negb (N.eqb c 1)) t = true -> token_ok t).
  { intros t H. apply andb_true_iff in H as (H1 & H2). rewrite forallb_forall in H2.
    assert (Q : forall c, In c t -> is_space c = false /\ c <> c_comma /\ c <> c_rbrace /\ c <> 1%N).
    { intros c Hc. specialize (H2 c Hc). rewrite !andb_true_iff, !negb_true_iff, !N.eqb_neq in H2. tauto. }
    split; [split; [intros ->; discriminate H1 | apply Forall_forall; intros c Hc; now apply Q] |]. repeat split; intros Hc; apply Q in Hc; tauto. }
  repeat split; apply K; destruct s; reflexivity.
Qed.
Theorem repr_back x : valid x = true -> token_ok (b_repr x) /\ b_parse (b_repr x) = Some x.
Proof.
  intros V. destruct x as [s | s | | s m e]; cbn [b_repr].
  - split; [apply special_tokens | destruct s; reflexivity].
  - split; [apply special_tokens | destruct s; reflexivity].
  - split; [apply special_tokens; exact true | reflexivity].
  - cbn [valid_binary] in V. pose proof (shortest_ok 16 m e V 1 ltac:(lia) eq_refl) as S. destruct (shortest 16 1 m e) as [[q p] k].
    destruct S as (Hp & Hq & Hv). destruct (shown s q p k 16 true Hp Hq) as (T & P). split; [exact T |]. rewrite P. f_equal.
    pose proof (Z.pow_pos_nonneg 10 (p - 1) ltac:(lia) ltac:(lia)). destruct q as [| q | q]; try lia. rewrite of_dec_sign, Hv. reflexivity.
Qed.
Lemma int_back z : b_parse (dec_of_Z z) = Some (b_of_Z z).
Proof.
  assert (P : forall s p, b_parse (sign_str s ++ dec_of_Z (Zpos p)) = Some (binary_round b_prec b_emax s p 0)).
  { intros s p. pose proof (dec_digs p) as D. assert (Nn : dec_of_Z (Zpos p) <> []) by apply dec_of_Z_nonnil.
    destruct (dec_of_Z (Zpos p)) as [| c t] eqn:E; [congruence |]. rewrite <- E in *.
    assert (Dc : is_digit c = true) by (rewrite E in D; cbn [forallb] in D; now apply andb_true_iff in D).
    rewrite (parse_signed s _ c t E Dc (digs_numchr _ D)).
    replace (dec_of_Z (Zpos p)) with (full (dec_of_Z (Zpos p)) None None) by (unfold full, mant; rewrite !app_nil_r; reflexivity).
    rewrite (parse_full s _ None None D Nn eq_refl). cbn [opt length]. rewrite app_nil_r, dec_dv. f_equal. cbn [b_of_dec].
    change (0 - Z.of_nat 0) with 0. change (0 <=? 0) with true. cbv iota. change (10 ^ 0) with 1. cbn [Z.to_pos]. rewrite Pos.mul_1_r. reflexivity. }
  destruct z as [| p | p]; [reflexivity | exact (P false p) | exact (P true p)].
Qed.

(** ** Rounding to digits *)
(** What reading makes of the text: for a finite number the decimal number of
    [p] digits nearest to it, as a float. *)
Definition g_read (p : Z) (x : b64) : b64 :=
  match x with
  | S754_finite s m e => let (n, d) := frac_of m e in let (q, k) := round_to p n d in b_of_dec s q (k - p + 1)
  | _ => x
  end.
Lemma g_read_valid p x : valid x = true -> valid (g_read p x) = true.
Proof.
  intros V. destruct x as [s | s | | s m e]; try exact V. cbn [g_read]. destruct (frac_of m e) as [n d]. destruct (round_to p n d) as [q k]. apply of_dec_valid.
Qed.
Lemma round_digits p m e : 1 <= p -> bounded b_prec b_emax m e = true ->
  let '(n, d) := frac_of m e in let '(q, k) := round_to p n d in 10 ^ (p - 1) <= q < 10 ^ p.
Proof.
  intros Hp Bd. rewrite frac_pw. pose proof (n_pos m e) as Hn. pose proof (d_pos m e) as Hd. pose proof (dec_exp_ok m e Bd) as (G1 & G2). cbv zeta in *.
  destruct (round_to_spec p _ _ Hp Hn Hd G1 G2) as (q & R). destruct (round_to p _ _) as [Q K]. apply R.
Qed.
Theorem fmt_back p x : 1 <= p -> valid x = true -> token_ok (fmt_g p x) /\ b_parse (fmt_g p x) = Some (g_read p x).
Proof.
  intros Hp V. destruct x as [s | s | | s m e]; cbn [fmt_g g_read].
  - split; [apply special_tokens | destruct s; reflexivity].
  - split; [apply special_tokens | destruct s; reflexivity].
  - split; [apply special_tokens; exact true | reflexivity].
  - pose proof (round_digits p m e Hp V) as R. destruct (frac_of m e) as [n d]. destruct (round_to p n d) as [q k]. now apply shown.
Qed.
