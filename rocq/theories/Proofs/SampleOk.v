(** The concrete records are well-formed. *)
From Coq Require Import List NArith ZArith Bool Lia.
From Verif Require Import Py.Str Py.Res Py.Num Model.Dict Model.TextParser Model.CommonUtils
  Spec.WholeNum Spec.Samples Spec.TextSpec Spec.Records Spec.RecordSamples Spec.RoundTripSpec
  Proofs.StrLemmas Proofs.NumLemmas Proofs.TextLemmas Proofs.RTText Proofs.WriteSim Proofs.RT6.
Import ListNotations.

(** Sufficient tests. *)
Definition one_lineb (s : str) : bool := negb (mem_chr c_nl s) && negb (mem_chr c_cr s).
Definition trimmedb (s : str) : bool := str_eqb (strip s) s.
Definition name_okb (s : str) : bool :=
  one_lineb s && trimmedb s && str_eqb (right_strip_braces s) s &&
  match rev s with c :: _ => negb (N.eqb c 1) | [] => true end.
Lemma one_lineb_ok s : one_lineb s = true -> one_line s.
Proof.
  intros K. apply andb_true_iff in K as [K1 K2]. apply negb_true_iff in K1, K2.
  split; now apply mem_chr_false.
Qed.
Lemma str_eqb_ok a b : str_eqb a b = true -> a = b.
Proof.
  revert b. induction a as [|x a IH]; intros [|y b] K; simpl in K; try discriminate; auto.
  apply andb_true_iff in K as [K1 K2]. apply N.eqb_eq in K1. subst. f_equal. auto.
Qed.
Lemma trimmedb_ok s : trimmedb s = true -> trimmed s.
Proof. intros K. apply str_eqb_ok in K. rewrite <- K. apply strip_trimmed. Qed.
Lemma comment_ok_of s : one_lineb s = true -> comment_ok s.
Proof. exact (one_lineb_ok s). Qed.
Lemma line_ok_of s : one_lineb s && trimmedb s = true -> one_line s /\ trimmed s.
Proof. intros K. apply andb_true_iff in K as [K1 K2]. split; [now apply one_lineb_ok|now apply trimmedb_ok]. Qed.
Lemma name_ok_of s : name_okb s = true -> name_ok s.
Proof.
  intros K. unfold name_okb in K. apply andb_true_iff in K as [K K4]. apply andb_true_iff in K as [K K3].
  split; [now apply line_ok_of|]. split.
  - intros p g b Ha. pose proof (right_strip_annotated _ _ _ _ Ha) as E. apply str_eqb_ok in K3. rewrite E in K3.
    destruct Ha as (El & _). rewrite <- K3 in El. apply (f_equal (@length chr)) in El. rewrite !app_length in El. cbn in El. lia.
  - intros t E. subst. rewrite rev_unit in K4. discriminate.
Qed.
Definition title_okb (s : str) : bool :=
  name_okb s && match s with c :: _ => negb (N.eqb c c_squote || N.eqb c c_dquote) | [] => false end &&
  match rev s with c :: _ => negb (N.eqb c c_squote || N.eqb c c_dquote) | [] => false end.
Lemma title_ok_of s : title_okb s = true -> title_ok s.
Proof.
  intros K. unfold title_okb in K. apply andb_true_iff in K as [K K3]. apply andb_true_iff in K as [K1 K2].
  split; [now apply name_ok_of|]. split; [now destruct s|].
  intros c t [-> | ->] Hq.
  - destruct Hq as [-> | ->]; discriminate.
  - rewrite rev_unit in K3. destruct Hq as [-> | ->]; discriminate.
Qed.
Definition token_okb (s : str) : bool :=
  match s with [] => false | _ => true end && no_sp s && negb (mem_chr c_comma s) && negb (mem_chr c_rbrace s) && negb (mem_chr 1%N s).
Lemma token_ok_of s : token_okb s = true -> token_ok s.
Proof.
  intros K. unfold token_okb in K. repeat (apply andb_true_iff in K as [K ?]).
  repeat match goal with E : negb _ = true |- _ => apply negb_true_iff in E end.
  split; [|repeat split; now apply mem_chr_false]. apply word_no_sp. split; auto. now destruct s.
Qed.
Definition char_okb (s : str) : bool :=
  name_okb s && match rev s with c :: _ => negb (N.eqb c c_comma) | [] => false end.
Lemma char_ok_of s : char_okb s = true -> char_ok s.
Proof.
  intros K. unfold char_okb in K. apply andb_true_iff in K as [K1 K2].
  split; [now apply name_ok_of|]. split; [now destruct s|]. intros t ->. rewrite rev_unit in K2. discriminate.
Qed.

Lemma delim4 : delim_ok (lit "    ").
Proof. split; [discriminate|]. split; [now apply blank_all_sp|]. now apply one_lineb_ok. Qed.
Lemma drop_point_app s : drop_point (s ++ lit ".0") = s.
Proof.
  unfold drop_point. rewrite rev_app_distr. cbn [lit rev app]. 
  replace (rev (lit ".0")) with [48%N; 46%N] by reflexivity. cbn [app]. 
  replace (str_eqb [46%N; 48%N] (lit ".0")) with true by reflexivity. apply rev_involutive.
Qed.
Lemma drop_point_dec z : drop_point (dec_of_Z z) = dec_of_Z z.
Proof.
  unfold drop_point. destruct (rev (dec_of_Z z)) as [|a [|b t]] eqn:E; auto.
  destruct (str_eqb [b; a] (lit ".0")) eqn:K; auto. apply str_eqb_ok in K. exfalso.
  assert (Hi : In 46%N (dec_of_Z z)).
  { apply in_rev. change (In 46%N (@rev chr (dec_of_Z z))). rewrite E. injection K as -> _. right. now left. }
  pose proof (dec_of_Z_chars z) as Kc. rewrite forallb_forall in Kc. specialize (Kc _ Hi). discriminate.
Qed.
Lemma whole_str_law : str_law (num:=whole).
Proof.
  split.
  - intros [z]. split.
    + cbn. destruct (token_dec z) as ((H1 & H2) & H3 & H4 & H5).
      assert (In_app : forall c, ~ In c (dec_of_Z z) -> c <> 46%N -> c <> 48%N -> ~ In c (dec_of_Z z ++ lit ".0")).
      { intros c K1 K2 K3 Hi. apply in_app_or in Hi as [Hi|Hi]; [auto|]. cbn in Hi. intuition congruence. }
      split; [split|repeat split; apply In_app; auto; discriminate].
      * destruct (dec_of_Z z); discriminate.
      * apply Forall_app. split; auto.
    + cbn. now rewrite drop_point_app, int_of_str_dec.
  - intros z. cbn. now rewrite drop_point_dec, int_of_str_dec.
Qed.
Lemma whole_fmt_law : fmt_law whole_g (fun x => x).
Proof. intros [z]. split; [apply token_dec|]. cbn. now rewrite drop_point_dec, int_of_str_dec. Qed.
Lemma whole_stable : fmt_stable whole_g (fun x => x).
Proof. intros x. reflexivity. Qed.

Ltac ok_step :=
  match goal with
  | |- _ /\ _ => split
  | |- Forall _ _ => constructor
  | |- Forall2 _ _ _ => constructor
  | |- name_ok _ => apply name_ok_of; reflexivity
  | |- title_ok _ => apply title_ok_of; reflexivity
  | |- token_ok _ => apply token_ok_of; reflexivity
  | |- char_ok _ => apply char_ok_of; reflexivity
  | |- comment_ok _ => apply comment_ok_of; reflexivity
  | |- common_ok _ => repeat split
  | |- vars_ok _ => split
  | |- auxs_ok _ => unfold auxs_ok; cbn
  | |- True => exact I
  | |- has_shape _ _ => cbn [has_shape]
  | |- _ = _ => reflexivity
  | |- (_ <= _)%nat => cbn; lia
  | |- (_ < _)%nat => cbn; lia
  | |- _ <> _ => discriminate
  | |- is_float _ => eexists; reflexivity
  | |- float_vars _ => constructor
  end.
Ltac ok := repeat (ok_step; cbv beta).
Lemma common_sample_ok : common_ok sample_common.
Proof. unfold common_ok; ok. Qed.
Lemma s1001_ok : ok1001 s1001. Proof. split; [apply common_sample_ok|]. cbn. ok. Qed.
Lemma s1010_ok : ok1010 s1010. Proof. split; [apply common_sample_ok|]. cbn. ok. Qed.
Lemma s1020_ok : ok1020 s1020. Proof. split; [apply common_sample_ok|]. cbn. ok. Qed.
Lemma s2010_ok : ok2010 s2010. Proof. split; [apply common_sample_ok|]. cbn. ok. Qed.
Lemma s3010_ok : ok2010 s3010. Proof. split; [apply common_sample_ok|]. cbn. ok. Qed.
Lemma s3010b_ok : ok2010 s3010b. Proof. split; [apply common_sample_ok|]. cbn. ok. Qed.
Lemma s4010_ok : ok2010 s4010. Proof. split; [apply common_sample_ok|]. cbn. ok. Qed.
Lemma s2110_ok : ok2110 (fun x => x) s2110. Proof. split; [apply common_sample_ok|]. cbn. unfold counts_ok, inner_ok. ok. Qed.
Lemma s2160_ok : ok2160 (fun x => x) s2160. Proof. split; [apply common_sample_ok|]. cbn. unfold counts_ok, inner_ok. ok. Qed.
Lemma s2310_ok : ok2310 (fun x => x) s2310.
Proof. split; [apply common_sample_ok|]. cbn. ok; eexists; split; reflexivity. Qed.
Lemma s1001i_ok : ok1001 s1001i. Proof. split; [apply common_sample_ok|]. cbn. ok. Qed.

(** The dictionary has the items. *)
Lemma dict_of_has items : NoDup (kNLHEAD :: map fst items) -> has (dict_of items) items.
Proof.
  intros Hn. assert (K : has (dict_of items) ((kNLHEAD, PInt 17) :: items)).
  { apply is_dict_has; [exact Hn|]. intros k. reflexivity. }
  intros k v Hi. apply K. now right.
Qed.
Ltac nodup := repeat (constructor; [cbn; intuition discriminate|]); constructor.
