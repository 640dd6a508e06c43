(** Decimal integers: printing and parsing. *)
From Coq Require Import List NArith ZArith Bool Lia Decimal DecimalPos DecimalN.
From Verif Require Import Py.Str Py.Res Py.Num Proofs.StrLemmas.
Import ListNotations.
Local Open Scope N_scope.

Lemma str_of_uint_digits d : forallb is_digit (str_of_uint d) = true.
Proof. induction d; simpl; auto. Qed.

Lemma uint_of_str_true d : uint_of_str true (str_of_uint d) = Some d.
Proof. induction d; simpl; auto; rewrite IHd; reflexivity. Qed.
Lemma uint_of_str_false d : d <> Decimal.Nil -> uint_of_str false (str_of_uint d) = Some d.
Proof. destruct d; simpl; try congruence; intros _; now rewrite uint_of_str_true. Qed.

Lemma N_to_uint_nonnil n : N.to_uint n <> Decimal.Nil.
Proof. destruct n; simpl; [discriminate|]. apply DecimalPos.Unsigned.to_uint_nonnil. Qed.

Lemma str_of_uint_nonnil d : d <> Decimal.Nil -> str_of_uint d <> [].
Proof. destruct d; simpl; congruence. Qed.

Lemma dec_of_N_nonnil n : dec_of_N n <> [].
Proof. apply str_of_uint_nonnil, N_to_uint_nonnil. Qed.

Lemma is_digit_range c : is_digit c = true <-> 48 <= c <= 57.
Proof. unfold is_digit. rewrite andb_true_iff, !N.leb_le. tauto. Qed.

Lemma is_space_false c : 33 <= c -> c <= 127 -> is_space c = false.
Proof.
  intros H1 H2. unfold is_space.
  repeat (rewrite orb_false_iff; split); rewrite ?andb_false_iff, ?N.leb_gt, ?N.eqb_neq; lia.
Qed.

Lemma digit_nonsp c : is_digit c = true -> nonsp c = true.
Proof. rewrite is_digit_range. intros. unfold nonsp. rewrite is_space_false; auto; lia. Qed.

(** Characters of a printed integer. *)
Definition is_intchr (c : chr) : bool := is_digit c || (c =? c_minus).
Lemma dec_of_Z_chars z : forallb is_intchr (dec_of_Z z) = true.
Proof.
  assert (D : forall n, forallb is_intchr (dec_of_N n) = true).
  { intros n. unfold dec_of_N. apply forallb_impl with (p := is_digit).
    - intros x Hx. unfold is_intchr. now rewrite Hx.
    - apply str_of_uint_digits. }
  destruct z; simpl; auto.
Qed.
Lemma intchr_nonsp c : is_intchr c = true -> nonsp c = true.
Proof.
  unfold is_intchr. rewrite orb_true_iff. intros [H|H]; [now apply digit_nonsp|].
  apply N.eqb_eq in H. subst. reflexivity.
Qed.
Lemma dec_of_Z_no_sp z : no_sp (dec_of_Z z) = true.
Proof. apply forallb_impl with (p := is_intchr); [apply intchr_nonsp | apply dec_of_Z_chars]. Qed.
Lemma dec_of_Z_nonnil z : dec_of_Z z <> [].
Proof. destruct z; simpl; try apply dec_of_N_nonnil; discriminate. Qed.

Lemma no_sp_strip s : no_sp s = true -> strip s = s.
Proof.
  intros H. destruct (strip_decomp s) as (a & b & Ha & Hb & Hs & _).
  assert (K : forall t, no_sp t = true -> all_sp t = true -> t = []).
  { intros [|c t]; simpl; auto. rewrite !andb_true_iff. unfold nonsp.
    intros [E _] [E2 _]. rewrite E2 in E. discriminate. }
  rewrite Hs, !forallb_app, !andb_true_iff in H. destruct H as (H1 & H2 & H3).
  rewrite (K a), (K b) in Hs by auto. simpl in Hs. rewrite app_nil_r in Hs. now symmetry.
Qed.

Lemma int_of_str_dec z : int_of_str (dec_of_Z z) = Some z.
Proof.
  unfold int_of_str. rewrite no_sp_strip by apply dec_of_Z_no_sp.
  assert (D : forall n c t, dec_of_N n = c :: t -> is_digit c = true).
  { intros n c t E. pose proof (str_of_uint_digits (N.to_uint n)) as Hd.
    unfold dec_of_N in E. rewrite E in Hd. simpl in Hd. now apply andb_true_iff in Hd. }
  assert (U : forall n, uint_of_str false (dec_of_N n) = Some (N.to_uint n)).
  { intros n. apply uint_of_str_false, N_to_uint_nonnil. }
  assert (B : forall n, N.of_uint (N.to_uint n) = n) by apply DecimalN.Unsigned.of_to.
  assert (K : forall n, match dec_of_N n with
     | [] => None
     | c :: t =>
      if c =? c_minus then option_map (fun d => Z.opp (Z.of_N (N.of_uint d))) (uint_of_str false t)
      else if c =? c_plus then option_map (fun d => Z.of_N (N.of_uint d)) (uint_of_str false t)
      else option_map (fun d => Z.of_N (N.of_uint d)) (uint_of_str false (c :: t))
     end = Some (Z.of_N n)).
  { intros n. pose proof (dec_of_N_nonnil n) as Hn. specialize (U n).
    destruct (dec_of_N n) as [|c t] eqn:E; [congruence|].
    pose proof (D _ _ _ E) as Hc. apply is_digit_range in Hc.
    destruct (N.eqb_spec c c_minus); [unfold c_minus in *; lia|].
    destruct (N.eqb_spec c c_plus); [unfold c_plus in *; lia|].
    rewrite U. simpl. now rewrite B. }
  destruct z; simpl dec_of_Z.
  - apply (K 0).
  - apply (K (Npos p)).
  - change (c_minus =? c_minus) with true. cbv iota. rewrite U. simpl option_map.
    unfold option_map. change (Pos.to_uint p) with (N.to_uint (Npos p)). 
    rewrite B. reflexivity.
Qed.

Lemma dec_of_Z_inj a b : dec_of_Z a = dec_of_Z b -> a = b.
Proof.
  intros E. pose proof (int_of_str_dec a) as H. rewrite E, int_of_str_dec in H. congruence.
Qed.
Lemma dec_of_N_Z n : dec_of_N n = dec_of_Z (Z.of_N n).
Proof. destruct n; reflexivity. Qed.
Lemma dec_of_nat_Z n : dec_of_nat n = dec_of_Z (Z.of_nat n).
Proof. unfold dec_of_nat. rewrite dec_of_N_Z. now rewrite nat_N_Z. Qed.
Lemma dec_of_nat_inj a b : dec_of_nat a = dec_of_nat b -> a = b.
Proof. rewrite !dec_of_nat_Z. intros E%dec_of_Z_inj. lia. Qed.
