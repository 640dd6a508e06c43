(** C67 and C68: files written with different delimiters. *)
From Coq Require Import List NArith ZArith QArith Bool Lia.
From Verif Require Import Py.Str Py.Res Py.Num Model.Dict Model.TextParser Model.CommonUtils Model.NAWrite Model.Compare
  Spec.RowSpec Spec.RowCompareSpec Spec.Records Spec.ZNum Spec.QNum Spec.Samples Proofs.StrLemmas Proofs.NumLemmas Proofs.WriteFrame
  Proofs.HeaderLemmas Proofs.RTText Proofs.RTRead Proofs.Delim Props.WriteProps.
From Verif Require Props.CompareProps.
Import ListNotations.
Local Open Scope nat_scope.

(** * C67 *)
Section C67.
Context {num : Type} `{NumOps num}.
(** For delimiters made of spaces and commas, without annotation: writing a
    dictionary with another delimiter has the same outcome, leaves the same
    dictionary, and gives the same rows of items. *)
Theorem C67_rows_partial : forall (o : opts num) d' c nh h d,
  o_annot o = false -> solid_numbers o -> blank_or_comma (o_delim o) -> blank_or_comma d' ->
  match write_body o c nh (mkW [] h d), write_body (with_delim o d') c nh (mkW [] h d) with
  | (r, s), (r', s') => r' = r /\ w_na s' = w_na s /\
      exists rows, w_file s = rows_text (o_delim o) rows /\ w_file s' = rows_text d' rows
  end.
Proof.
  intros o d' c nh h d Ha Hs D1 D2.
  assert (S0 : S2 o (with_delim o d') (mkW [] [] d) (mkW [] [] d)) by (split; [reflexivity|split; apply T_nil]).
  destruct (sim_body o (with_delim o d') Ha Ha eq_refl Hs D1 D2 c nh _ _ S0) as ((Q1 & _ & Q2) & Hr).
  change (write_body o c nh (mkW [] [] d)) with (write_body o c nh (mkW [] h d)) in *.
  change (write_body (with_delim o d') c nh (mkW [] [] d)) with (write_body (with_delim o d') c nh (mkW [] h d)) in *.
  destruct (write_body o c nh (mkW [] h d)) as [r s], (write_body (with_delim o d') c nh (mkW [] h d)) as [r' s'].
  cbn [fst snd] in *. split; [|split; [exact Q1|exact Q2]].
  destruct r as [[]|], r' as [[]|]; cbn [rel] in Hr; try contradiction; congruence.
Qed.
End C67.
Print Assumptions C67_rows_partial.

Lemma dec_solid z : solid (dec_of_Z z).
Proof.
  destruct (exists_last (dec_of_Z_nonnil z)) as (t & c & E). exists t, c. split; [exact E|].
  pose proof (dec_of_Z_chars z) as K. rewrite forallb_forall in K. specialize (K c). rewrite E, in_app_iff in K.
  assert (Kc : is_intchr c = true) by (apply K; right; now left). split; [apply intchr_nonsp in Kc; unfold nonsp in Kc; now apply negb_true_iff in Kc|]. intros ->. discriminate.
Qed.
Lemma rows_count c d rows : count_chr c (rows_text d rows) =
  (count_chr c (rows_text [] rows) + fold_right (fun r n => pred (length r) + n) 0 rows * count_chr c d)%nat.
Proof.
  induction rows as [|r rows IH]; [reflexivity|]. rewrite !rows_text_cons, !count_chr_app, IH, !count_join. cbn [fold_right].
  change (count_chr c []) with 0%nat. lia.
Qed.
(** Two texts with the same rows: the numbers of delimiters fit. *)
Lemma rows_gaps c1 c2 rows : c1 <> c2 ->
  (count_chr c1 (rows_text [c1] rows) + count_chr c2 (rows_text [c1] rows) = count_chr c1 (rows_text [c2] rows) + count_chr c2 (rows_text [c2] rows))%nat.
Proof.
  intros Hc. rewrite !(rows_count _ [c1]), !(rows_count _ [c2]). cbn [count_chr].
  rewrite !N.eqb_refl. destruct (N.eqb_spec c1 c2) as [E|_]; [contradiction|]. destruct (N.eqb_spec c2 c1) as [E|_]; [congruence|]. lia.
Qed.
(** With the tab as delimiter, which the documentation of convertNCToNA uses,
    the lines of data have one item more: they end with a tab. *)
Theorem C67_refuted : exists (o : opts Z) d' c d s s',
  o_annot o = false /\ solid_numbers o /\
  write_body o c false (mkW [] [] d) = (Ok tt, s) /\ write_body (with_delim o d') c false (mkW [] [] d) = (Ok tt, s') /\
  ~ exists rows, w_file s = rows_text (o_delim o) rows /\ w_file s' = rows_text d' rows.
Proof.
  exists (with_delim opts0 [c_tab]), (lit ","), C1001, d1001.
  assert (K1 : fst (write_body (with_delim opts0 [c_tab]) C1001 false (mkW [] [] d1001)) = Ok tt) by (vm_compute; reflexivity).
  assert (K2 : fst (write_body (with_delim (with_delim opts0 [c_tab]) (lit ",")) C1001 false (mkW [] [] d1001)) = Ok tt) by (vm_compute; reflexivity).
  assert (K3 : let f1 := w_file (snd (write_body (with_delim opts0 [c_tab]) C1001 false (mkW [] [] d1001))) in
     let f2 := w_file (snd (write_body (with_delim (with_delim opts0 [c_tab]) (lit ",")) C1001 false (mkW [] [] d1001))) in
     Nat.eqb (count_chr c_tab f1 + count_chr c_comma f1) (count_chr c_tab f2 + count_chr c_comma f2) = false) by (vm_compute; reflexivity).
  destruct (write_body (with_delim opts0 [c_tab]) C1001 false (mkW [] [] d1001)) as [r1 s] eqn:E1.
  destruct (write_body (with_delim (with_delim opts0 [c_tab]) (lit ",")) C1001 false (mkW [] [] d1001)) as [r2 s'] eqn:E2.
  cbn [fst snd] in *. subst r1 r2. exists s, s'. split; [reflexivity|]. split.
  { intros x. apply dec_solid. }
  split; [reflexivity|]. split; [reflexivity|]. intros (rows & F1 & F2). cbv zeta in K3. rewrite F1, F2 in K3.
  apply Nat.eqb_neq in K3. apply K3. change (lit ",") with [c_comma]. apply rows_gaps. discriminate.
Qed.
Print Assumptions C67_refuted.

(** * C68 *)
(** ** Taking rows apart *)
Lemma starts_with_app p s : starts_with p (p ++ s) = true.
Proof. induction p as [|c p IH]; [reflexivity|]. cbn [app starts_with]. now rewrite N.eqb_refl, IH. Qed.
Lemma starts_with_spec p s : starts_with p s = true -> exists t, s = p ++ t.
Proof.
  revert s. induction p as [|c p IH]; intros s E; [now exists s|]. destruct s as [|x s]; [discriminate|]. cbn [starts_with] in E.
  apply andb_true_iff in E as [E1 E2]. apply N.eqb_eq in E1 as ->. destruct (IH _ E2) as (t & ->). now exists t.
Qed.
Lemma split_skip d x t : split_str_aux d (x ++ t) (length x) = split_str_aux d t 0.
Proof. induction x as [|c x IH]; [reflexivity|]. cbn [app length split_str_aux]. exact IH. Qed.
Lemma split_delim d t : d <> [] -> split_str_aux d (d ++ t) 0 = ([], let (w, ws) := split_str_aux d t 0 in w :: ws).
Proof.
  intros Hd. destruct d as [|c d]; [congruence|]. cbn [app split_str_aux].
  rewrite (starts_with_app (c :: d) t : starts_with (c :: d) (c :: d ++ t) = true). cbn [length pred].
  rewrite split_skip. now destruct (split_str_aux (c :: d) t 0).
Qed.
Lemma split_free d x t : (forall a b, x = a ++ b -> b <> [] -> starts_with d (b ++ t) = false) ->
  split_str_aux d (x ++ t) 0 = let (w, ws) := split_str_aux d t 0 in (x ++ w, ws).
Proof.
  induction x as [|c x IH]; intros Hx.
  - cbn [app]. now destruct (split_str_aux d t 0).
  - cbn [app split_str_aux]. change (c :: x ++ t) with ((c :: x) ++ t). rewrite (Hx [] (c :: x)) by (auto; congruence).
    rewrite IH; [now destruct (split_str_aux d t 0)|]. intros a b -> Hb. now apply (Hx (c :: a) b).
Qed.
Lemma free_end d x : ~ inside d x -> d <> [] -> forall a b, x = a ++ b -> b <> [] -> starts_with d (b ++ []) = false.
Proof.
  intros Hi Hd a b -> Hb. rewrite app_nil_r. destruct (starts_with d b) eqn:E; [|reflexivity]. exfalso.
  apply starts_with_spec in E as (t & ->). apply Hi. exists a, t. reflexivity.
Qed.
Lemma free_inked d x t : blank_or_comma d -> ~ inside d x -> inked x -> forall a b, x = a ++ b -> b <> [] -> starts_with d (b ++ t) = false.
Proof.
  intros Hd Hi (_ & c & q & Ex & Hc) a b E Hb. destruct (starts_with d (b ++ t)) eqn:Es; [|reflexivity]. exfalso.
  apply starts_with_spec in Es as (u & Eu). apply app_eq_app in Eu as (l & [[Eb Ed] | [Ed Eu]]).
  - apply Hi. exists a, l. now rewrite E, Eb.
  - destruct (exists_last Hb) as (b' & e & ->). rewrite E, app_assoc in Ex. apply app_inj_tail in Ex as [_ ->].
    assert (Hin : In c d) by (rewrite Ed, !in_app_iff; left; right; now left).
    destruct Hc as [H1 H2]. destruct (Hd _ Hin) as [-> | ->]; [discriminate|congruence].
Qed.
Lemma split_items_row d r : blank_or_comma d -> d <> [] -> r <> [] -> Forall (fun i => inked i /\ ~ inside d i) r ->
  split_items (Some d) (join d r) = Ok r.
Proof.
  intros Hd Hn Hr Hi. assert (K : exists w ws, split_str_aux d (join d r) 0 = (w, ws) /\ w :: ws = r).
  { induction Hi as [|x r [Hx Hxi] Hi IH]; [congruence|]. destruct r as [|y r].
    - exists x, []. split; [|reflexivity]. change (join d [x]) with x. pose proof (split_free d x [] (free_end d x Hxi Hn)) as K.
      rewrite app_nil_r in K. rewrite K. cbn [split_str_aux]. now rewrite app_nil_r.
    - rewrite join_cons by congruence. rewrite split_free by (now apply free_inked). rewrite split_delim by auto.
      destruct IH as (w & ws & E & Ew); [congruence|]. rewrite E, app_nil_r. eexists _, _. split; [reflexivity|]. now rewrite Ew. }
  destruct K as (w & ws & E & <-). unfold split_items. destruct d; [congruence|]. now rewrite E.
Qed.
Lemma split_items_one d x : d <> [] -> ~ inside d x -> split_items (Some d) x = Ok [x].
Proof.
  intros Hn Hi. unfold split_items. pose proof (split_free d x [] (free_end d x Hi Hn)) as K. rewrite app_nil_r in K. cbn [split_str_aux] in K.
  destruct d as [|c0 d0]; [congruence|]. rewrite K. now rewrite app_nil_r.
Qed.

Lemma strip_inked x : inked x -> strip x = x.
Proof.
  intros ((c & t & E & Hc & _) & (e & u & Eu & He & _)). unfold strip, lstrip.
  assert (lstrip_by is_space x = x) as -> by (rewrite E; cbn [lstrip_by]; now rewrite Hc).
  rewrite Eu. now apply rstrip_by_last.
Qed.
Lemma inked_join d r : r <> [] -> Forall inked r -> inked (join d r).
Proof.
  intros Hr Hi. induction Hi as [|x r Hx Hi IH]; [congruence|]. destruct r as [|y r]; [exact Hx|].
  destruct IH as (_ & e & u & E & He); [congruence|]. rewrite join_cons by congruence. destruct Hx as ((c & t & -> & Hc) & _). split.
  - exists c, (t ++ d ++ join d (y :: r)). auto.
  - exists e, ((c :: t) ++ d ++ u). rewrite E, <- !app_assoc. auto.
Qed.
Section C68.
Context {num : Type} `{NumOps num} `{CmpOps num}.
Lemma Ok_inj {A} (a b : A) : Ok a = Ok b -> a = b. Proof. congruence. Qed.
Lemma str_refl s : str_eqb s s = true. Proof. now apply str_eqb_eq. Qed.
Lemma strs_refl l : strs_eqb l l = true. Proof. induction l; cbn [strs_eqb]; [reflexivity|]. now rewrite str_refl. Qed.
Lemma items_refl ap l : Forall (same_as_itself num) l -> items_same (num:=num) ap l l = Ok true.
Proof.
  induction 1 as [|x l Hx Hl IH]; [reflexivity|]. cbn [items_same].
  assert (item_same (num:=num) ap x x = Ok true) as ->.
  { unfold item_same. destruct (num_parse x) as [v|] eqn:E; [|now rewrite str_refl]. now rewrite (Hx v E). }
  exact IH.
Qed.
Lemma same_items nc ap d1 d2 a b items : split_items d1 (strip a) = Ok items -> split_items d2 (strip b) = Ok items ->
  Forall (same_as_itself num) items -> line_same (num:=num) nc ap d1 d2 a b = Ok true.
Proof.
  intros E1 E2 Hi. unfold line_same. destruct (has_letter (strip a) && str_eqb (strip a) (strip b)); [reflexivity|].
  rewrite E1, E2. cbn [bindR]. rewrite Nat.eqb_refl. cbn [negb]. destruct nc; cbn [negb]; [now apply items_refl|]. now rewrite strs_refl.
Qed.
Lemma has_letter_strip s : has_letter s = has_letter (strip s).
Proof.
  assert (L : forall c, is_space c = true -> is_letter c = false).
  { intros c Hc. destruct (is_letter c) eqn:E; [|reflexivity]. unfold is_letter in E.
    assert (K : (65 <= c <= 90 \/ 97 <= c <= 122)%N).
    { apply orb_true_iff in E as [E|E]; apply andb_true_iff in E as (E1 & E2); apply N.leb_le in E1; apply N.leb_le in E2; lia. }
    clear E. unfold is_space in Hc. rewrite !orb_true_iff, !andb_true_iff, !N.eqb_eq, !N.leb_le in Hc. unfold chr in *. lia. }
  destruct (strip_decomp s) as (p & q & Hp & Hq & E & _). rewrite E at 1. unfold has_letter. rewrite !existsb_app.
  assert (K : forall x, all_sp x = true -> existsb is_letter x = false).
  { intros x Hx. apply not_true_iff_false. intros Hex. apply existsb_exists in Hex as (c & Hc & Hl).
    rewrite (L c (proj1 (forallb_forall _ _) Hx c Hc)) in Hl. discriminate. }
  rewrite (K p Hp), (K q Hq). now rewrite orb_false_r.
Qed.
Lemma row_same nc ap d1 d2 row : blank_or_comma d1 -> blank_or_comma d2 -> d1 <> [] -> d2 <> [] -> comparable num d1 d2 row ->
  line_same (num:=num) nc ap (Some d1) (Some d2) (join d1 row ++ nl) (join d2 row ++ nl) = Ok true.
Proof.
  intros B1 B2 N1 N2 (_ & Hr). destruct row as [|i [|j row]].
  - cbn [join app]. assert (N : forall d : str, d <> [] -> ~ inside d []) by (intros d Hd (x & y & E); destruct x, d; try discriminate; congruence).
    apply (same_items nc ap (Some d1) (Some d2) nl nl [[]]); auto; apply split_items_one; auto; change (strip nl) with (@nil chr); auto.
  - cbn [join]. destruct Hr as [Hl|(I1 & I2 & Hs)].
    + apply CompareProps.has_letter_iff in Hl. unfold line_same. rewrite strip_app_sp by reflexivity. rewrite <- has_letter_strip, Hl, str_refl. reflexivity.
    + apply (same_items nc ap (Some d1) (Some d2) _ _ [strip i]); auto; rewrite strip_app_sp by reflexivity; now apply split_items_one.
  - assert (Hi : Forall inked (i :: j :: row)) by (eapply Forall_impl; [|exact Hr]; cbn beta; tauto).
    apply (same_items nc ap (Some d1) (Some d2) _ _ (i :: j :: row)).
    + rewrite strip_app_sp, strip_inked by (try reflexivity; apply inked_join; auto; congruence).
      apply split_items_row; auto; [congruence|]. eapply Forall_impl; [|exact Hr]; cbn beta; tauto.
    + rewrite strip_app_sp, strip_inked by (try reflexivity; apply inked_join; auto; congruence).
      apply split_items_row; auto; [congruence|]. eapply Forall_impl; [|exact Hr]; cbn beta; tauto.
    + eapply Forall_impl; [|exact Hr]; cbn beta; tauto.
Qed.
Lemma rows_same nc ap d1 d2 rows : blank_or_comma d1 -> blank_or_comma d2 -> d1 <> [] -> d2 <> [] -> Forall (comparable num d1 d2) rows ->
  compareSections (num:=num) (map (fun r => join d1 r ++ nl) rows) (map (fun r => join d2 r ++ nl) rows) nc ap (Some d1) (Some d2) = Ok true.
Proof.
  intros B1 B2 N1 N2. induction 1 as [|r rows Hr Hrs IH]; [reflexivity|]. cbn [map compareSections]. rewrite row_same by auto.
  cbn [bindR]. rewrite IH. reflexivity.
Qed.
Lemma one_line_join d r : blank_or_comma d -> Forall one_line r -> one_line (join d r).
Proof.
  intros Hd Hr. assert (Hl : one_line d) by (split; intros Hi; destruct (Hd _ Hi); discriminate).
  induction Hr as [|x r Hx Hr IH]; [split; intros []|]. destruct r as [|y r]; [exact Hx|]. rewrite join_cons by congruence.
  destruct Hx, Hl, IH. split; rewrite !in_app_iff; tauto.
Qed.
Lemma readlines_rows d rows : blank_or_comma d -> Forall (Forall one_line) rows ->
  readlines (rows_text d rows) = map (fun r => join d r ++ nl) rows.
Proof.
  intros Hd Hr. assert (E : rows_text d rows = unlines (map (join d) rows)) by (unfold rows_text, unlines; now rewrite map_map).
  rewrite E, readlines_file.
  - unfold nls. now rewrite map_map.
  - apply Forall_map. eapply Forall_impl; [|exact Hr]. intros r. now apply one_line_join.
Qed.
Lemma split_head d x t : blank_or_comma d -> d <> [] -> inked x -> ~ inside d x -> exists l, split_items (Some d) (x ++ d ++ t) = Ok (x :: l).
Proof.
  intros Hd Hn Hx Hi. unfold split_items. destruct d as [|c0 d0]; [congruence|]. set (d := c0 :: d0) in *.
  rewrite split_free by (now apply free_inked). rewrite split_delim by auto. rewrite app_nil_r. eauto.
Qed.
Lemma map_slice_to {A B} (f : A -> B) l n : slice_to (map f l) n = map f (slice_to l n).
Proof. unfold slice_to. rewrite map_length. now rewrite firstn_map. Qed.
Lemma map_slice_from {A B} (f : A -> B) l n : slice_from (map f l) n = map f (slice_from l n).
Proof. unfold slice_from. rewrite map_length. now rewrite skipn_map. Qed.
Lemma Forall_slice_to {A} (P : A -> Prop) l n : Forall P l -> Forall P (slice_to l n).
Proof. intros Hl. unfold slice_to. cbv zeta. set (k := Z.to_nat _). rewrite <- (firstn_skipn k l) in Hl. now apply Forall_app in Hl. Qed.
Lemma Forall_slice_from {A} (P : A -> Prop) l n : Forall P l -> Forall P (slice_from l n).
Proof. intros Hl. unfold slice_from. cbv zeta. set (k := Z.to_nat _). rewrite <- (firstn_skipn k l) in Hl. now apply Forall_app in Hl. Qed.
Lemma files_same name d1 d2 r0 rows f l1 l2 n header body nc ap : excluded name = false ->
  blank_or_comma d1 -> blank_or_comma d2 -> d1 <> [] -> d2 <> [] -> Forall (comparable num d1 d2) (r0 :: rows) ->
  split_items (Some d1) (join d1 r0 ++ nl) = Ok (f :: l1) -> split_items (Some d2) (join d2 r0 ++ nl) = Ok (f :: l2) -> int_of_str f = Some n ->
  compNAFiles (num:=num) name (rows_text d1 (r0 :: rows)) (rows_text d2 (r0 :: rows)) header body nc ap (Some d1) (Some d2) = Ok (Some true).
Proof.
  intros Hx B1 B2 N1 N2 Hc E1 E2 En. unfold compNAFiles. rewrite Hx.
  assert (Ho : Forall (Forall one_line) (r0 :: rows)) by (eapply Forall_impl; [|exact Hc]; intros r K; apply K).
  rewrite !readlines_rows by auto. cbv zeta. set (L := r0 :: rows) in *.
  match goal with |- context [nth_res ?m 0] => change (nth_res m 0) with (Ok (join d1 r0 ++ nl)) end.
  match goal with |- context [nth_res (map ?g L) 0] => change (nth_res (map g L) 0) with (Ok (join d2 r0 ++ nl)) end.
  cbn [bindR]. rewrite E1, E2. cbn [bindR]. change (nth_res (f :: l1) 0) with (@Ok str f). change (nth_res (f :: l2) 0) with (@Ok str f).
  cbn [bindR]. rewrite En. cbn [of_opt bindR]. rewrite !map_slice_to, !map_slice_from.
  rewrite !rows_same by (auto; apply Forall_slice_to || apply Forall_slice_from; auto).
  now destruct header, body.
Qed.

(** C68 for any two files of the same rows: files whose first row starts with a
    whole number are reported to be equal. *)
Theorem C68_rows : forall name d1 d2 f g r0 rows n header body number_clever approx,
  excluded name = false -> blank_or_comma d1 -> blank_or_comma d2 -> d1 <> [] -> d2 <> [] ->
  Forall (comparable num d1 d2) ((f :: g :: r0) :: rows) -> int_of_str f = Some n ->
  compNAFiles (num:=num) name (rows_text d1 ((f :: g :: r0) :: rows)) (rows_text d2 ((f :: g :: r0) :: rows))
    header body number_clever approx (Some d1) (Some d2) = Ok (Some true).
Proof.
  intros name d1 d2 f g r0 rows n header body nc ap Hx B1 B2 N1 N2 Hc En.
  assert (Hf : inked f /\ ~ inside d1 f /\ ~ inside d2 f).
  { inversion Hc as [|? ? (_ & Hr) _]; subst. inversion Hr as [|? ? Hf _]; subst. tauto. }
  destruct Hf as (Hi & I1 & I2).
  destruct (split_head d1 f (join d1 (g :: r0) ++ nl) B1 N1 Hi I1) as (l1 & E1).
  destruct (split_head d2 f (join d2 (g :: r0) ++ nl) B2 N2 Hi I2) as (l2 & E2).
  eapply files_same; eauto.
  - rewrite join_cons by congruence. rewrite <- !app_assoc. exact E1.
  - rewrite join_cons by congruence. rewrite <- !app_assoc. exact E2.
Qed.

Lemma dec_inked d z : blank_or_comma d -> d <> [] -> inked (dec_of_Z z) /\ ~ inside d (dec_of_Z z).
Proof.
  intros Hd Hn. assert (K : forall c, In c (dec_of_Z z) -> ink c).
  { intros c Hi. pose proof (proj1 (forallb_forall _ _) (dec_of_Z_chars z) c Hi) as Hc. split.
    - apply intchr_nonsp in Hc. unfold nonsp in Hc. now apply negb_true_iff in Hc.
    - intros ->. discriminate. }
  split; [split|].
  - destruct (dec_of_Z z) as [|c t] eqn:E; [now apply dec_of_Z_nonnil in E|]. exists c, t. split; [reflexivity|]. apply K. now left.
  - destruct (exists_last (dec_of_Z_nonnil z)) as (t & c & E). exists c, t. split; [exact E|]. apply K. rewrite E, in_app_iff. right. now left.
  - intros (a & b & E). destruct d as [|c d]; [congruence|]. destruct (K c) as (K1 & K2); [rewrite E, !in_app_iff; right; left; now left|].
    destruct (Hd c) as [-> | ->]; [now left|discriminate|congruence].
Qed.
Lemma dec_prefix d1 d2 m n a b : blank_or_comma d1 -> blank_or_comma d2 -> d1 <> [] -> d2 <> [] ->
  dec_of_Z m ++ d1 ++ a = dec_of_Z n ++ d2 ++ b -> m = n.
Proof.
  intros B1 B2 N1 N2 E.
  assert (K : forall d c z, blank_or_comma d -> d <> [] -> In c d -> ~ In c (dec_of_Z z)).
  { intros d c z B Hn Hi Hc. destruct (proj1 (forallb_forall _ _) (dec_of_Z_chars z) c Hc). destruct (B c Hi) as [-> | ->];
    pose proof (proj1 (forallb_forall _ _) (dec_of_Z_chars z) _ Hc); discriminate. }
  apply app_eq_app in E as (l & [[E1 E2] | [E1 E2]]).
  - destruct l as [|c l]; [rewrite app_nil_r in E1; now apply dec_of_Z_inj in E1|]. exfalso. destruct d2 as [|e d2]; [congruence|].
    cbn [app] in E2. injection E2 as -> _. apply (K (c :: d2) c m B2 N2); [now left|]. rewrite E1, in_app_iff. right. now left.
  - destruct l as [|c l]; [rewrite app_nil_r in E1; now apply dec_of_Z_inj in E1|]. exfalso. destruct d1 as [|e d1]; [congruence|].
    cbn [app] in E2. injection E2 as -> _. apply (K (c :: d1) c n B1 N1); [now left|]. rewrite E1, in_app_iff. right. now left.
Qed.
Lemma first_line (x y a b : str) : ~ In c_nl x -> ~ In c_nl y -> x ++ nl ++ a = y ++ nl ++ b -> x = y.
Proof.
  revert y. induction x as [|c x IH]; intros [|e y] Hx Hy E; cbn [app] in E.
  - reflexivity.
  - exfalso. apply Hy. injection E as <- _. now left.
  - exfalso. apply Hx. injection E as -> _. now left.
  - injection E as -> E. f_equal. apply IH; auto; intros K; [apply Hx|apply Hy]; now right.
Qed.

(** C68 for files written from the same dictionary. *)
Theorem C68_written_partial : forall (o : opts num) d' c h d s s' rows name header body number_clever approx,
  o_annot o = false -> solid_numbers o -> blank_or_comma (o_delim o) -> blank_or_comma d' -> o_delim o <> [] -> d' <> [] ->
  c <> C2160 \/ attr d kIGN = PNone \/ attr d kIGN = PList [] -> excluded name = false ->
  write_body o c false (mkW [] h d) = (Ok tt, s) -> write_body (with_delim o d') c false (mkW [] h d) = (Ok tt, s') ->
  w_file s = rows_text (o_delim o) rows -> w_file s' = rows_text d' rows -> Forall (comparable num (o_delim o) d') rows ->
  compNAFiles (num:=num) name (w_file s) (w_file s') header body number_clever approx (Some (o_delim o)) (Some d') = Ok (Some true).
Proof.
  intros o d' c h d s s' rows name header body nc ap Ha Hs B1 B2 N1 N2 Hign Hx W1 W2 F1 F2 Hc.
  assert (NN : forall e, blank_or_comma e -> ~ In c_nl e) by (intros e B Hi; destruct (B _ Hi); discriminate).
  destruct (C07_header_length o c [] h d s W1) as (pre1 & hdr1 & data1 & ann1 & ffi1 & n1 & _ & _ & G1 & ((b1 & H1) & _) & A1 & FF1 & P1 & _);
    [auto|unfold getAnnotation; rewrite Ha; intros a K; apply Ok_inj in K as <-; intros []|].
  destruct (C07_header_length (with_delim o d') c [] h d s' W2) as (pre2 & hdr2 & data2 & ann2 & ffi2 & n2 & _ & _ & G2 & ((b2 & H2) & _) & A2 & FF2 & P2 & _);
    [apply NN; exact B2|unfold getAnnotation; cbn [o_annot with_delim]; rewrite Ha; intros a K; apply Ok_inj in K as <-; intros []|].
  unfold getAnnotation in A1, A2. cbn [o_annot with_delim o_delim] in *. rewrite Ha in A1, A2. apply Ok_inj in A1, A2. subst ann1 ann2.
  rewrite (P1 Hign) in G1. rewrite (P2 Hign) in G2. cbn [app] in *. clear P1 P2. rewrite H1 in G1. rewrite H2 in G2.
  rewrite FF1 in FF2. apply Ok_inj in FF2. subst ffi2. 
  assert (Ez : exists z, ffi1 = dec_of_Z z).
  { revert FF1. unfold fmt_d. destruct (attr d kFFI) as [|z|x| |]; try discriminate.
    - intros K. apply Ok_inj in K as <-. eauto.
    - destruct (num_trunc x); [|discriminate]. intros K. apply Ok_inj in K as <-. eauto. }
  destruct Ez as (z & ->). rewrite F1 in *. rewrite F2 in *. rewrite dec_of_nat_Z in *.
  destruct rows as [|r0 rows]; [exfalso; cbn [rows_text map concat] in G1; destruct (dec_of_Z (Z.of_nat n1)) eqn:E; [now apply dec_of_Z_nonnil in E|discriminate]|].
  unfold rows_text in G1, G2. cbn [map concat] in G1, G2. rewrite <- ?app_assoc in G1, G2. change [c_nl] with nl in *.
  inversion Hc as [|? ? (Hl & Hr0) _]; subst.
  assert (ND : forall k, ~ In c_nl (dec_of_Z k)).
  { intros k Hi. pose proof (proj1 (forallb_forall _ _) (dec_of_Z_chars k) _ Hi). discriminate. }
  assert (L1 : join (o_delim o) r0 = dec_of_Z (Z.of_nat n1) ++ o_delim o ++ dec_of_Z z).
  { eapply first_line; [apply one_line_join; auto| |].
    - rewrite !in_app_iff. pose proof (NN _ B1). pose proof (ND (Z.of_nat n1)). pose proof (ND z). tauto.
    - rewrite <- !app_assoc. exact G1. }
  assert (L2 : join d' r0 = dec_of_Z (Z.of_nat n2) ++ d' ++ dec_of_Z z).
  { eapply first_line; [apply one_line_join; auto| |].
    - rewrite !in_app_iff. pose proof (NN _ B2). pose proof (ND (Z.of_nat n2)). pose proof (ND z). tauto.
    - rewrite <- !app_assoc. exact G2. }
  destruct (dec_inked (o_delim o) (Z.of_nat n1) B1 N1) as (K1 & K2).
  destruct (dec_inked d' (Z.of_nat n2) B2 N2) as (K3 & K4).
  assert (En : Z.of_nat n1 = Z.of_nat n2).
  { destruct r0 as [|i [|j r0]].
    - cbn [join] in L1. destruct (dec_of_Z (Z.of_nat n1)) eqn:E; [now apply dec_of_Z_nonnil in E|discriminate].
    - cbn [join] in L1, L2. rewrite L1 in L2. now apply dec_prefix in L2.
    - assert (NE : i :: j :: r0 <> []) by discriminate.
      assert (Hr : Forall (fun i => inked i /\ ~ inside (o_delim o) i) (i :: j :: r0)) by (eapply Forall_impl; [|exact Hr0]; cbn beta; tauto).
      assert (Hr' : Forall (fun i => inked i /\ ~ inside d' i) (i :: j :: r0)) by (eapply Forall_impl; [|exact Hr0]; cbn beta; tauto).
      pose proof (split_items_row (o_delim o) _ B1 N1 NE Hr) as S1. rewrite L1 in S1.
      pose proof (split_items_row d' _ B2 N2 NE Hr') as S2'. rewrite L2 in S2'.
      destruct (split_head (o_delim o) _ (dec_of_Z z) B1 N1 K1 K2) as (l1 & E1). rewrite E1 in S1. apply Ok_inj in S1.
      destruct (split_head d' _ (dec_of_Z z) B2 N2 K3 K4) as (l2 & E2). rewrite E2 in S2'. apply Ok_inj in S2'.
      apply dec_of_Z_inj. congruence. }
  destruct (split_head (o_delim o) _ (dec_of_Z z ++ nl) B1 N1 K1 K2) as (l1 & E1).
  destruct (split_head d' _ (dec_of_Z z ++ nl) B2 N2 K3 K4) as (l2 & E2).
  eapply (files_same name (o_delim o) d' r0 rows (dec_of_Z (Z.of_nat n1)) l1 l2); auto; [| |apply int_of_str_dec].
  - rewrite L1, <- !app_assoc. exact E1.
  - rewrite L2, <- !app_assoc, En. exact E2.
Qed.
End C68.
Print Assumptions C68_rows.
Print Assumptions C68_written_partial.

(** ** Concrete cases *)
(** Whole numbers, compared exactly. *)
Local Instance ZCmp : CmpOps Z := {|
  num_eqb := Z.eqb; num_ltb := Z.ltb; num_div := Z.div; num_sub := Z.sub;
  num_zero := 0%Z; num_one := 1%Z; num_tiny := 0%Z; num_thr := 0%Z |}.
Lemma Z_same s : same_as_itself Z s.
Proof. intros x _. apply Z.eqb_refl. Qed.

(** C68 fails for a comment line with numbers and commas: the NASA Ames file and
    the CSV file of one dictionary are reported to differ when the headers are
    compared. *)
Definition d_numbers : na Z := upd d1001 kNCOM (PList [tx "1, 2"; tx "comment 2"]).
Theorem C68_refuted : exists (o : opts Z) d' c d s s',
  o_annot o = false /\ solid_numbers o /\ o_delim o = lit "    " /\ d' = lit "," /\
  write_body o c false (mkW [] [] d) = (Ok tt, s) /\ write_body (with_delim o d') c false (mkW [] [] d) = (Ok tt, s') /\
  compNAFiles (num:=Z) (lit "a.na") (w_file s) (w_file s') true false true false (Some (o_delim o)) (Some d') = Ok (Some false).
Proof.
  exists opts0, (lit ","), C1001, d_numbers.
  assert (K1 : fst (write_body opts0 C1001 false (mkW [] [] d_numbers)) = Ok tt) by (vm_compute; reflexivity).
  assert (K2 : fst (write_body (with_delim opts0 (lit ",")) C1001 false (mkW [] [] d_numbers)) = Ok tt) by (vm_compute; reflexivity).
  assert (K3 : compNAFiles (num:=Z) (lit "a.na") (w_file (snd (write_body opts0 C1001 false (mkW [] [] d_numbers))))
     (w_file (snd (write_body (with_delim opts0 (lit ",")) C1001 false (mkW [] [] d_numbers)))) true false true false (Some (lit "    ")) (Some (lit ",")) = Ok (Some false)) by (vm_compute; reflexivity).
  destruct (write_body opts0 C1001 false (mkW [] [] d_numbers)) as [r1 s] eqn:E1.
  destruct (write_body (with_delim opts0 (lit ",")) C1001 false (mkW [] [] d_numbers)) as [r2 s'] eqn:E2.
  cbn [fst snd] in *. subst r1 r2. exists s, s'. split; [reflexivity|]. split; [intros x; apply dec_solid|].
  split; [reflexivity|]. split; [reflexivity|]. split; [reflexivity|]. split; [reflexivity|]. exact K3.
Qed.
Print Assumptions C68_refuted.

(** The rows of the sample file: both files consist of them, they can be
    compared, and the comparison reports equal files. *)
Definition rows1001 : list (list str) := map (map (fun l => lit l)) [
  ["19"; "1001"]; ["De Witt, B."]; ["BADC"]; ["Sonde"]; ["Test"]; ["1"; "2"]; ["1969 1 1"; "2002 10 31"]; ["0"];
  ["time (s)"]; ["2"]; ["1"; "1"]; ["9999"; "9999"]; ["temp (K)"]; ["pressure (hPa)"]; ["1"]; ["special comment"];
  ["2"]; ["normal"]; ["comment 2"]; ["1"; "10"; "-1"]; ["2"; "20"; "-2"]; ["4"; "30"; "9999"]]%pylit.
Example C67_rows1001 :
  w_file (snd (write_body opts0 C1001 false (mkW [] [] d1001))) = rows_text (lit "    ") rows1001 /\
  w_file (snd (write_body (with_delim opts0 (lit ",")) C1001 false (mkW [] [] d1001))) = rows_text (lit ",") rows1001.
Proof. split; vm_compute; reflexivity. Qed.
Definition inked_b (s : str) : bool :=
  match s, rev s with c :: _, e :: _ => negb (is_space c) && negb (c =? c_comma)%N && negb (is_space e) && negb (e =? c_comma)%N | _, _ => false end.
Lemma inked_ok s : inked_b s = true -> inked s.
Proof.
  unfold inked_b. destruct s as [|c s]; [discriminate|]. destruct (rev (c :: s)) as [|e t] eqn:E; [discriminate|].
  rewrite !andb_true_iff, !negb_true_iff, !N.eqb_neq. intros (((H1 & H2) & H3) & H4). split; [exists c, s; repeat split; auto|].
  exists e, (rev t). split; [|split; auto]. rewrite <- (rev_involutive (c :: s)), E. reflexivity.
Qed.
Fixpoint inside_b (d s : str) : bool := starts_with d s || match s with [] => false | _ :: t => inside_b d t end.
Definition row_b (d1 d2 : str) (r : list str) : bool :=
  forallb (fun i => negb (mem_chr c_nl i) && negb (mem_chr c_cr i)) r &&
  match r with
  | [] => true
  | [i] => has_letter i || negb (inside_b d1 (strip i)) && negb (inside_b d2 (strip i))
  | _ => forallb (fun i => inked_b i && negb (inside_b d1 i) && negb (inside_b d2 i)) r
  end.
Lemma inside_ok d s : inside_b d s = false -> ~ inside d s.
Proof.
  intros E (a & b & ->). induction a as [|c a IH].
  - cbn [app] in E. pose proof (starts_with_app d b) as K. destruct (d ++ b); cbn [inside_b] in E; rewrite K in E; discriminate.
  - cbn [app inside_b] in E. apply orb_false_iff in E as [_ E]. auto.
Qed.
Lemma row_ok d1 d2 r : row_b d1 d2 r = true -> comparable Z d1 d2 r.
Proof.
  unfold row_b. intros E. apply andb_true_iff in E as [E1 E2]. split.
  - apply Forall_forall. intros i Hi. rewrite forallb_forall in E1. specialize (E1 i Hi). rewrite andb_true_iff, !negb_true_iff in E1.
    split; apply mem_chr_false; tauto.
  - destruct r as [|i [|j r]].
    + apply Z_same.
    + apply orb_true_iff in E2 as [E2|E2]; [left; apply CompareProps.has_letter_iff, E2|]. rewrite andb_true_iff, !negb_true_iff in E2. right.
      split; [apply inside_ok; tauto|]. split; [apply inside_ok; tauto|apply Z_same].
    + apply Forall_forall. intros k Hk. rewrite forallb_forall in E2. specialize (E2 k Hk). rewrite !andb_true_iff, !negb_true_iff in E2.
      split; [now apply inked_ok|]. split; [apply inside_ok; tauto|]. split; [apply inside_ok; tauto|apply Z_same].
Qed.
Example C68_comparable : Forall (comparable Z (lit "    ") (lit ",")) rows1001.
Proof. apply Forall_forall. intros r Hr. apply row_ok. revert r Hr. apply forallb_forall. vm_compute. reflexivity. Qed.
Example C68_sample : forall header body number_clever approx,
  compNAFiles (num:=Z) (lit "a.na") (w_file (snd (write_body opts0 C1001 false (mkW [] [] d1001))))
    (w_file (snd (write_body (with_delim opts0 (lit ",")) C1001 false (mkW [] [] d1001))))
    header body number_clever approx (Some (lit "    ")) (Some (lit ",")) = Ok (Some true).
Proof.
  intros header body nc ap. rewrite (proj1 C67_rows1001), (proj2 C67_rows1001).
  apply (C68_rows (lit "a.na") (lit "    ") (lit ",") (lit "19") (lit "1001") [] (tl rows1001) 19%Z); try reflexivity; try discriminate.
  - intros c Hc. left. repeat (destruct Hc as [<-|Hc]; [reflexivity|]). destruct Hc.
  - intros c Hc. right. repeat (destruct Hc as [<-|Hc]; [reflexivity|]). destruct Hc.
  - exact C68_comparable.
Qed.
(** Files that differ in one number are reported to differ. *)
Example C68_other : compNAFiles (num:=Z) (lit "a.na") (rows_text (lit "    ") rows1001)
  (rows_text (lit ",") (removelast rows1001 ++ [map (fun l => lit l) ["4"; "31"; "9999"]%pylit])) true true true false (Some (lit "    ")) (Some (lit ",")) = Ok (Some false).
Proof. vm_compute. reflexivity. Qed.
