(** C52: comments of converted dictionaries. *)
From Coq Require Import List NArith ZArith Bool Lia.
From Verif Require Import Py.Str Py.Res Py.Num Py.Arith Model.Dict Model.NCWrite Model.Xarray Model.Collector Spec.CollectorSpec Spec.ZNum
  Spec.TextSpec Proofs.StrLemmas Proofs.NumLemmas Proofs.BlankLemmas Proofs.ReadFrame Proofs.CollectorLemmas Proofs.CollectorFrame
  Props.CollectorProps.
Import ListNotations.
(** NSCOML and NNCOML are the numbers of comments, and every comment is a text of
    one line. *)
Lemma split_lines_one s : Forall one_line (split_chr c_nl s).
Proof.
  assert (K : one_line (fst (split_chr_aux c_nl s)) /\ Forall one_line (snd (split_chr_aux c_nl s))).
  { induction s as [| c t IH]; [split; [intros [] | constructor] |]. cbn [split_chr_aux].
    destruct (split_chr_aux c_nl t) as [w ws]. destruct IH as [I1 I2]. cbn [fst snd] in I1, I2.
    destruct (N.eqb_spec c c_nl) as [-> | N]; cbn [fst snd]; [split; [intros [] | constructor; assumption] |].
    split; [| exact I2]. intros [Q | I]; [exact (N Q) | exact (I1 I)]. }
  unfold split_chr. destruct (split_chr_aux c_nl s) as [w ws]. constructor; apply K.
Qed.
Lemma clean_one_line (c : list str) : Forall one_line (clean c).
Proof.
  unfold clean. apply Forall_flat_map, Forall_forall. intros e _. unfold clean_entry. destruct (is_nil (strip e)); [constructor |].
  apply Forall_map. refine (Forall_impl _ _ (split_lines_one e)). intros l Hl. destruct (str_eqb l _); [exact Hl |].
  intros I. apply in_app_iff in I as [[I | [I | []]] | I]; [discriminate I | discriminate I | exact (Hl I)].
Qed.
Theorem C52_counts : forall num (Num : NumOps num) (Ar : ArithOps num) (E : env num) req globals (vars : list (xvar num)) cs c,
  convert E req globals vars = Ok (Some cs) -> In c cs ->
  exists d scom ncom, c_na c = Some d /\
    d kSCOM = Some (PList (map PStr scom)) /\ d kNSCOML = Some (PInt (Z.of_nat (length scom))) /\ Forall one_line scom /\
    d kNCOM = Some (PList (map PStr ncom)) /\ d kNNCOML = Some (PInt (Z.of_nat (length ncom))) /\ Forall one_line ncom.
Proof.
  intros num Num Ar E req globals xr cs c R I.
  destruct (convert_each E _ _ _ _ _ R I) as (vs & C & Nc & In1). destruct (c_na c) as [d |] eqn:Nd; [| congruence].
  destruct (collect_steps E _ _ _ _ _ C Nd) as (a & d1 & d2 & g & d3 & v0 & ax0 & Ha & H1 & H2 & Hg & H3 & _ & _ & -> & _ & _).
  unfold defineNAComments in H3. cbv zeta in H3. bindE H3 sc Hsc. injection H3 as <-.
  eexists _, (clean sc), (clean (ncom_of g)). split; [reflexivity |].
  rewrite !(same_header E ax0 _) by (cbn; intuition discriminate).
  repeat (split; [first [reflexivity | apply clean_one_line] |]). apply clean_one_line.
Qed.

(** a comment whose lines are kept as they are, and not blank *)
Definition fine (c : str) : Prop := blank c \/ forall l, In l (split_chr c_nl c) -> ~ blank l.
Lemma fine_clean (c : list str) : Forall fine c -> Forall (fun l => ~ blank l) (clean c).
Proof.
  intros F. unfold clean. apply Forall_flat_map. refine (Forall_impl _ _ F). intros e He. unfold clean_entry.
  destruct (is_nil (strip e)) eqn:B; [constructor |]. apply strip_nonblank in B. destruct He as [He | He]; [contradiction |].
  apply Forall_map, Forall_forall. intros l Il. specialize (He l Il). destruct (str_eqb l _); [exact He |].
  intros Q. apply He. unfold blank in *. apply Forall_app in Q. apply Q.
Qed.
Lemma split_one_line s : one_line s -> split_chr c_nl s = [s].
Proof.
  intros O. unfold split_chr. rewrite split_chr_aux_nosep; [reflexivity |]. unfold one_line in O.
  induction s as [| c t IH]; [reflexivity |]. cbn [mem_chr existsb]. apply orb_false_iff. split.
  - apply N.eqb_neq. intros Q. apply O. left. congruence.
  - apply IH. intros I. apply O. right. exact I.
Qed.
Lemma one_line_fine s : one_line s -> fine s.
Proof.
  intros O. destruct (is_nil (strip s)) eqn:B; [left; apply strip_blank, B |]. right. rewrite (split_one_line _ O).
  intros l [<- | []]. apply strip_nonblank, B.
Qed.
Lemma one_line_app a b : one_line a -> one_line b -> one_line (a ++ b).
Proof. intros A B I. apply in_app_iff in I as [I | I]; auto. Qed.
Lemma split_prefix p s : one_line p -> split_chr c_nl (p ++ s) = (p ++ hd [] (split_chr c_nl s)) :: tl (split_chr c_nl s).
Proof.
  intros O. unfold split_chr. induction p as [| c t IH]; cbn [app].
  - destruct (split_chr_aux c_nl s) as [w ws]. reflexivity.
  - cbn [split_chr_aux]. destruct (split_chr_aux c_nl (t ++ s)) as [w ws].
    specialize (IH (fun I => O (or_intror I))). destruct (split_chr_aux c_nl s) as [w' ws']. cbn [hd tl] in *.
    injection IH as -> ->. destruct (N.eqb_spec c c_nl) as [-> | N]; [exfalso; apply O; left; reflexivity | reflexivity].
Qed.
Lemma fine_prefix p s r : r = p ++ s -> one_line p -> ~ blank p -> tidy s -> fine r.
Proof.
  intros -> O B T. right. rewrite (split_prefix _ _ O). intros l [<- | I]; [| exact (T l I)].
  intros Q. apply B. unfold blank in *. apply Forall_app in Q. apply Q.
Qed.
Ltac not_blank c := let Q := fresh in intros Q; unfold blank in Q; rewrite Forall_forall in Q;
  specialize (Q c); rewrite !in_app_iff in Q; assert (is_space c = true) by (apply Q; cbn; tauto); discriminate.

Section Quiet.
Context {num : Type} {Num : NumOps num} {Ar : ArithOps num}.
Local Notation xvar := (xvar num).
Variable E : env num.
Hypothesis num_one_line : forall x : num, one_line (num_str x).

Lemma one_line_tidy s : one_line s -> tidy s.
Proof. intros O l. rewrite (split_one_line _ O). intros []. Qed.
Lemma digits_one_line s : forallb is_digit s = true -> one_line s.
Proof. intros F I. rewrite forallb_forall in F. specialize (F _ I). discriminate F. Qed.
Lemma dec_one_line z : one_line (dec_of_Z z).
Proof. intros I. assert (F := dec_of_Z_chars z). rewrite forallb_forall in F. specialize (F _ I). discriminate F. Qed.
Lemma fmt_tidy (v : pyv num) t : fmt_s v = Ok t -> (forall s, v = PStr s -> tidy s) -> tidy t.
Proof.
  intros F T. destruct v; cbn in F; try discriminate F; injection F as <-.
  - apply one_line_tidy. intros I. cbn in I. intuition discriminate.
  - apply one_line_tidy, dec_one_line.
  - apply one_line_tidy, num_one_line.
  - apply T. reflexivity.
Qed.
Lemma att_line_fine att (v : pyv num) l : one_line att -> (forall s, v = PStr s -> tidy s) -> att_line att v = Ok l -> fine l.
Proof.
  unfold att_line. intros O T R. bindE R t Ht. injection R as <-.
  apply (fine_prefix (lit "    " ++ att ++ lit " = ") t); [rewrite <- !app_assoc; reflexivity | | not_blank 61%N | exact (fmt_tidy _ _ Ht T)].
  repeat apply one_line_app; try exact O; intros I; cbn in I; intuition discriminate.
Qed.
Lemma var_line_fine (v : xvar) n : one_line (v_name v) -> one_line n -> fine (var_line v n).
Proof.
  unfold var_line. intros O1 O2. apply one_line_fine. repeat apply one_line_app; try assumption; intros I; cbn in I; intuition discriminate.
Qed.
Lemma lookup_in {A} k (l : list (str * A)) v : lookup k l = Some v -> In (k, v) l.
Proof.
  induction l as [| [k' v'] t IH]; cbn; [discriminate |]. destruct (str_eqb k k') eqn:Q; intros R.
  - injection R as ->. apply str_eqb_eq in Q as ->. left. reflexivity.
  - right. exact (IH R).
Qed.
Lemma replace_in p s : forall n c, In c (replace_aux p [] s n) -> In c s.
Proof.
  induction s as [| x t IH]; intros n c; [cbn; auto |]. cbn [replace_aux]. destruct n; [| intros I; right; exact (IH _ _ I)].
  destruct (starts_with p (x :: t)); cbn [app]; [intros I; right; exact (IH _ _ I) |].
  intros [<- | I]; [left; reflexivity | right; exact (IH _ _ I)].
Qed.
Lemma strip_in s c : In c (strip s) -> In c s.
Proof.
  assert (K : forall s, In c (lstrip_by is_space s) -> In c s).
  { intros u I. destruct (lstrip_by_decomp is_space u) as (a & _ & Q & _). rewrite Q. apply in_app_iff. right. exact I. }
  unfold strip. intros I. apply K. destruct (rstrip_by_decomp is_space (lstrip s)) as (b & _ & Q & _).
  change (In c (lstrip s)). rewrite Q. apply in_app_iff. left. exact I.
Qed.
Lemma in_firstn_in {A} n (l : list A) x : In x (firstn n l) -> In x l.
Proof. intros I. rewrite <- (firstn_skipn n l). apply in_app_iff. left. exact I. Qed.
Definition name_ok (i : named num) : Prop :=
  one_line (n_name i) /\ one_line (n_enc_units i) /\
  forall k g s, In (k, g) (n_attrs i) -> In k name_keys -> g_val g = PStr s -> one_line s.
Lemma text_ok (i : named num) k g s : name_ok i -> In k name_keys -> n_attr i k = Some g -> text_of g = Ok s -> one_line s.
Proof. intros (_ & _ & K) I L T. exact (K k g s (lookup_in _ _ _ L) I (text_of_val _ _ T)). Qed.
Lemma bestname_one_line (i : named num) n : name_ok i -> getBestName i = Ok n -> one_line n.
Proof.
  intros K R. unfold getBestName in R. bindE R f Hf. destruct (is_nil f); [discriminate R |]. bindE R u Hu.
  assert (Of : one_line f).
  { unfold first_name in Hf.
    destruct (n_attr i (lit "long_name")) as [g |] eqn:A1; [refine (text_ok i _ g f K _ A1 Hf); cbn; tauto |].
    destruct (n_attr i (lit "standard_name")) as [g |] eqn:A2; [refine (text_ok i _ g f K _ A2 Hf); cbn; tauto |].
    destruct (n_attr i (lit "title")) as [g |] eqn:A3; [refine (text_ok i _ g f K _ A3 Hf); cbn; tauto |].
    injection Hf as <-. apply K. }
  assert (Ou : one_line u).
  { unfold units_of in Hu. bindE Hu w Hw. injection Hu as <-. intros I. apply strip_in in I. revert I.
    destruct (is_nil w); [apply K |].
    destruct (n_attr i (lit "units")) as [g |] eqn:A1; [refine (text_ok i _ g w K _ A1 Hw); cbn; tauto |].
    injection Hw as <-. intros []. }
  set (par := [c_lpar] ++ u ++ [c_rpar]) in *.
  assert (Op : one_line par).
  { repeat apply one_line_app; try exact Ou; intros [I | []]; discriminate I. }
  cbv zeta in R. injection R as <-.
  match goal with |- one_line (if ?b then slice_to ?x _ else ?x) =>
    assert (Ox : one_line x); [| destruct b; [| exact Ox]; intros I; apply Ox; revert I; unfold slice_to; apply in_firstn_in] end.
  destruct (is_nil u); [exact Of |].
  assert (O1 : one_line (f ++ lit " " ++ par)).
  { apply one_line_app; [exact Of |]. apply one_line_app; [| exact Op]. intros [I | []]. discriminate I. }
  match goal with |- one_line (if ?b then _ else _) => destruct b end; [| exact O1].
  apply one_line_app; [| exact Op]. intros I. apply O1. exact (replace_in _ _ _ _ I).
Qed.
Definition quiet (v : xvar) : Prop :=
  one_line (v_name v) /\ name_ok (v_info v) /\
  forall k g, In (k, g) (n_attrs (v_info v)) -> one_line k /\ tidy_val (g_val g).
Lemma tidy_quiet (v : xvar) : tidy_var v -> quiet v.
Proof.
  intros (A & B & _ & C). split; [exact A | split; [split; [exact A | split; [exact B |]] |]].
  - intros k g s I K V. exact (proj2 (proj2 (C k g I)) K s V).
  - intros k g I. destruct (C k g I) as (C1 & C2 & _). auto.
Qed.
Lemma set_attr_in k (g : gval num) l k' g' : In (k', g') (set_attr k g l) -> (k' = k /\ g' = g) \/ In (k', g') l.
Proof.
  unfold set_attr. destruct (mem_str k (map fst l)).
  - intros I. apply in_map_iff in I as ([k2 g2] & Q & I). cbn [fst] in Q. destruct (str_eqb k2 k); injection Q as <- <-; auto.
  - intros I. apply in_app_iff in I as [I | [I | []]]; [auto |]. injection I as <- <-. auto.
Qed.
Lemma quiet_singleton (v w : xvar) : tidy_var v -> convertSingleton v = Ok w -> quiet w.
Proof.
  intros T R. destruct (has_axes v) eqn:Hv; [rewrite (singleton_axes _ Hv) in R; injection R as <-; exact (tidy_quiet _ T) |].
  destruct (tidy_quiet _ T) as (_ & K & _). destruct T as (A & B & D & C).
  unfold convertSingleton in R. rewrite rank_has, Hv in R. cbn [negb] in R. bindE R n Hn. injection R as <-.
  assert (O := bestname_one_line _ _ K Hn).
  split; [exact O | split; [split; [exact O | split; [intros [] |]] |]]; cbn [v_info n_attrs].
  - intros k g s I Ik V. apply set_attr_in in I as [[-> ->] | I]; [cbn in Ik; intuition discriminate |].
    exact (proj2 (proj2 (C k g I)) Ik s V).
  - intros k g I. apply set_attr_in in I as [[-> ->] | I].
    + split; [intros I; cbn in I; intuition discriminate | exact D].
    + destruct (C k g I) as (C1 & C2 & _). auto.
Qed.

Lemma mapR_Forall {A B} (P : B -> Prop) (f : A -> Res B) l l' : (forall x y, In x l -> f x = Ok y -> P y) -> mapR f l = Ok l' -> Forall P l'.
Proof.
  revert l'. induction l as [| x t IH]; intros l' Hf R; cbn in R; [injection R as <-; constructor |].
  bindE R y Hy. bindE R ys Hys. injection R as <-. constructor; [exact (Hf x y (or_introl eq_refl) Hy) |].
  apply IH; [intros; eapply Hf; eauto; right; assumption | exact Hys].
Qed.
Ltac lit_line := intros I; cbn in I; intuition discriminate.
Lemma hp_one_line : Forall one_line [hp_sc_start; hp_sc_end; hp_nc_start; hp_nc_end; hp_data_next; hp_sing_start; hp_sing_end;
  hp_ncatts_start; hp_ncatts_end; hp_addl_globals; hp_addl_vatts].
Proof. repeat (constructor; [intros I; vm_compute in I; intuition discriminate |]). constructor. Qed.
Lemma hp_fine h : In h [hp_sc_start; hp_sc_end; hp_nc_start; hp_nc_end; hp_data_next; hp_sing_start; hp_sing_end;
  hp_ncatts_start; hp_ncatts_end; hp_addl_globals; hp_addl_vatts] -> fine h.
Proof. intros I. apply one_line_fine. exact (proj1 (Forall_forall _ _) hp_one_line h I). Qed.

Lemma zero_fine (zero : list xvar) zl : Forall quiet zero -> rank_zero_lines zero = Ok zl -> Forall fine zl.
Proof.
  intros Q R. unfold rank_zero_lines in R. bindE R ls Hls. injection R as <-.
  assert (F : Forall fine (concat ls)).
  { apply Forall_concat. refine (mapR_Forall _ _ _ _ _ Hls). intros v y Iv Hy. rewrite Forall_forall in Q.
    destruct (Q v Iv) as (A & K & C). bindE Hy n Hn. bindE Hy atts Ha. injection Hy as <-.
    constructor; [exact (var_line_fine _ _ A (bestname_one_line _ _ K Hn)) |].
    refine (mapR_Forall _ _ _ _ _ Ha). intros [k g] l Ip Hl. apply filter_In in Ip as [Ip _]. cbn [fst snd] in Hl.
    destruct (C k g Ip) as [C1 C2]. refine (att_line_fine _ _ _ C1 _ Hl). intros s V. rewrite V in C2. exact C2. }
  destruct (concat ls) as [| x t]; [constructor |]. constructor; [apply hp_fine; cbn; tauto |].
  apply (Forall_app _ (x :: t)). split; [exact F |]. constructor; [apply hp_fine; cbn; tauto | constructor].
Qed.
Lemma shown_tidy att (v : pyv num) w s : tidy_val v -> shown att v = Some w -> w = PStr s -> tidy s.
Proof.
  unfold shown. intros T R ->. destruct v as [| z | x | s' | [| y [| y2 l]]]; try discriminate R;
    try (match type of R with (if ?b then _ else _) = _ => destruct b; discriminate R end).
  - injection R as ->. exact T.
  - destruct y; try discriminate R; try (match type of R with (if ?b then _ else _) = _ => destruct b; discriminate R end). injection R as ->. exact T.
Qed.
Lemma varcom_fine zl (v : xvar) name : Forall fine zl -> one_line (v_name v) -> one_line name ->
  forall atts w s s', (forall k g, In (k, g) atts -> one_line k /\ tidy_val (g_val g)) ->
  Forall fine (ss_scom s) -> var_comments zl v name atts w s = Ok s' -> Forall fine (ss_scom s').
Proof.
  intros Z A B. induction atts as [| [k g] t IH]; intros w s s' C F R; cbn [var_comments] in R; [injection R as <-; exact F |].
  assert (Ct : forall k g, In (k, g) t -> one_line k /\ tidy_val (g_val g)) by (intros k' g' I; apply C; right; exact I).
  destruct (C k g (or_introl eq_refl)) as [C1 C2].
  destruct (shown k (g_val g)) as [value |] eqn:Sh; [| exact (IH _ _ _ Ct F R)].
  cbv zeta in R. bindE R l Hl. refine (IH _ _ _ Ct _ R). cbn [ss_scom].
  assert (F1 : Forall fine (if ss_spec s then ss_scom s else ([hp_sc_start] ++ zl) ++ [hp_addl_vatts; hp_ncatts_start])).
  { destruct (ss_spec s); [exact F |]. repeat (apply Forall_app; split); try exact Z;
      repeat (constructor; [apply hp_fine; cbn; tauto |]); constructor. }
  apply Forall_app. split; [| constructor; [| constructor]].
  - destruct w; [exact F1 |]. apply Forall_app. split; [exact F1 |]. constructor; [apply var_line_fine; assumption | constructor].
  - refine (att_line_fine _ _ _ C1 _ Hl). intros s0 V. exact (shown_tidy _ _ _ _ C2 Sh V).
Qed.
Lemma scom_fine g (zero main : list xvar) sc : Forall one_line (gs_special (num := num) g) -> Forall quiet zero -> Forall quiet main ->
  scom_of g zero main = Ok sc -> Forall fine sc.
Proof.
  intros Sp Z M R. unfold scom_of in R. bindE R zl Hz. cbv zeta in R. bindE R s Hs. injection R as <-.
  assert (Fz := zero_fine _ _ Z Hz). apply Forall_app. split.
  - refine (forR_inv (fun s => Forall fine (ss_scom s)) _ _ _ _ _ Hs _).
    + intros v s1 s2 Iv Q F. bindE Q n Hn. rewrite Forall_forall in M. destruct (M v Iv) as (A & K & C).
      exact (varcom_fine _ _ _ Fz A (bestname_one_line _ _ K Hn) _ _ _ _ C F Q).
    + destruct (gs_special g) as [| x t] eqn:G; [constructor |]. cbn [ss_scom]. constructor; [apply hp_fine; cbn; tauto |].
      refine (Forall_impl _ _ Sp). apply one_line_fine.
  - apply Forall_app. split; [destruct (ss_var s) | destruct (ss_spec s)]; try (apply Forall_nil);
      apply Forall_cons; try (apply Forall_nil); apply hp_fine; cbn; tauto.
Qed.

(** the comments from global attributes *)
Definition gfine (g : gst (num := num)) : Prop :=
  Forall one_line (gs_special g) /\ Forall one_line (gs_normal g) /\ Forall fine (gs_other g) /\ Forall one_line (gs_history g).
Lemma sort_comments_sub : forall ls sp nm, Forall one_line ls ->
  Forall one_line (fst (sort_comments ls sp nm)) /\ Forall one_line (snd (sort_comments ls sp nm)).
Proof.
  induction ls as [| l t IH]; intros sp nm F; [split; constructor |]. inversion F as [| ? ? F1 F2]; subst. cbn [sort_comments].
  destruct (contains hp_sc_start l); [apply IH, F2 |]. destruct (contains hp_sc_end l); [apply IH, F2 |].
  destruct (contains hp_nc_start l); [apply IH, F2 |]. destruct (contains hp_nc_end l); [apply IH, F2 |].
  destruct (IH sp nm F2) as [I1 I2]. destruct (sort_comments t sp nm) as [a b]. cbn [fst snd] in I1, I2.
  destruct sp; cbn [fst snd]; [split; [constructor |]; assumption |].
  destruct nm; cbn [fst snd]; [split; [| constructor]; assumption |].
  destruct (contains hp_data_next l); cbn [fst snd]; split; try constructor; assumption.
Qed.
Lemma item_fine p s s' : tidy_global p -> gfine s -> global_item E p s = Ok s' -> gfine s'.
Proof.
  unfold global_item. destruct p as [k g]. intros [O T] (G1 & G2 & G3 & G4) R. cbn [fst snd] in O, T. cbv zeta in R.
  destruct (str_eqb k (lit "first_valid_date_of_data")).
  { destruct (numpy_scalar g); [discriminate R |]. injection R as <-. repeat split; assumption. }
  destruct (negb (negb (g_np g) && match g_val g with PStr _ | PInt _ | PNum _ => true | _ => false end)).
  { injection R as <-. repeat split; assumption. }
  destruct (str_eqb k (lit "history")) eqn:Kh.
  { bindE R t Ht. injection R as <-. repeat (split; [assumption |]). cbn [gs_history]. unfold history_lines.
    apply Forall_map. refine (Forall_impl _ _ (split_lines_one _)). intros h Hh. destruct (str_eqb (firstn 8 h) (lit "History:")); [exact Hh |].
    apply one_line_app; [lit_line | exact Hh]. }
  destruct (str_eqb k (lit "institution")).
  { destruct (g_val g); try discriminate R. destruct (match institution_match s0 with Some p => p | None => (s0, s0) end).
    injection R as <-. repeat split; assumption. }
  destruct (str_eqb k (lit "comment")) eqn:Kc.
  { destruct (g_val g); try discriminate R. assert (Q := sort_comments_sub (split_chr c_nl s0) false false (split_lines_one s0)).
    destruct (sort_comments (split_chr c_nl s0) false false) as [a b]. injection R as <-. destruct Q as [Q1 Q2].
    split; [apply Forall_app; auto | split; [apply Forall_app; auto | split; assumption]]. }
  destruct (lookup k plain_map); [injection R as <-; repeat split; assumption |].
  bindE R t Ht. injection R as <-. split; [exact G1 | split; [exact G2 | split; [| exact G4]]]. cbn [gs_other].
  apply Forall_app. split; [exact G3 |]. constructor; [| constructor].
  apply (fine_prefix (k ++ lit ":   ") t); [rewrite <- app_assoc; reflexivity | apply one_line_app; [exact O | lit_line] | not_blank 58%N |].
  refine (fmt_tidy _ _ Ht _). intros s0 V.
  assert (N1 : k <> lit "comment") by (intros ->; rewrite (proj2 (str_eqb_eq _ _) eq_refl) in Kc; discriminate Kc).
  assert (N2 : k <> lit "history") by (intros ->; rewrite (proj2 (str_eqb_eq _ _) eq_refl) in Kh; discriminate Kh).
  specialize (T N1 N2). rewrite V in T. exact T.
Qed.
Lemma ncom_fine g : gfine g -> Forall fine (ncom_of g).
Proof.
  intros (G1 & G2 & G3 & G4). unfold ncom_of. cbv zeta.
  assert (F : Forall fine (gs_other g ++ (match gs_normal g with [] => [] | n => hp_addl_globals :: n end) ++ gs_history g)).
  { apply Forall_app. split; [exact G3 |]. apply Forall_app. split; [| refine (Forall_impl _ _ G4); apply one_line_fine].
    destruct (gs_normal g) as [| x t] eqn:G; [constructor |]. constructor; [apply hp_fine; cbn; tauto |].
    refine (Forall_impl _ _ G2). apply one_line_fine. }
  destruct (gs_other g ++ _) as [| x t]; [constructor |].
  apply Forall_app. split; [constructor; [apply hp_fine; cbn; tauto | constructor] |].
  apply Forall_app. split; [exact F |]. constructor; [left; constructor |].
  repeat (constructor; [apply hp_fine; cbn; tauto |]). constructor.
Qed.
Lemma mapR_in {A B} (f : A -> Res B) l l' y : mapR f l = Ok l' -> In y l' -> exists x, In x l /\ f x = Ok y.
Proof.
  revert l'. induction l as [| x t IH]; intros l' R I; cbn in R; [injection R as <-; destruct I |].
  bindE R z Hz. bindE R zs Hzs. injection R as <-. destruct I as [<- | I]; [exists x; split; [left |]; auto |].
  destruct (IH _ Hzs I) as (x' & Ix & Q). exists x'. split; [right |]; assumption.
Qed.
Lemma convert_from req globals xr cs c : convert E req globals xr = Ok (Some cs) -> In c cs ->
  exists vs, collectNAContent E req globals vs = Ok c /\ c_na c <> None /\
    (forall v, In v vs -> exists v0, In v0 xr /\ convertSingleton v0 = Ok v).
Proof.
  intros R I. destruct (convert_some E _ _ _ _ R) as (vars & vars' & c0 & rest & M & O & C & N & L & ->).
  assert (In1 : forall v, In v vars' -> exists v0, In v0 xr /\ convertSingleton v0 = Ok v).
  { intros v Iv. apply (mapR_in _ _ _ _ M). unfold reorderVars in O. destruct (5000 <? length vars)%nat; [discriminate O |].
    injection O as <-. apply filter_In in Iv. apply Iv. }
  destruct I as [<- | I]; [exists vars'; auto |].
  destruct (loop_each E _ _ _ _ _ L c I) as (vs & A & B & D). exists vs. split; [exact B | split; [exact D |]].
  intros v Iv. apply In1. specialize (A v Iv).
  destruct (c_na c0) as [d |] eqn:Nc; [| congruence].
  destruct (collect_some E _ _ _ _ _ C Nc) as (a & Ha & _ & _ & Eu & _). rewrite Eu in A.
  destruct (analyse_from E _ _ _ Ha) as (_ & _ & F). exact (F v A).
Qed.
End Quiet.

(** When names are one line long and attributes have no blank lines after the
    first, no comment is blank.  (The attributes [comment] and [history] may
    contain anything.) *)
Theorem C52_partial : forall num (Num : NumOps num) (Ar : ArithOps num) (E : env num) req globals (vars : list (xvar num)) cs c,
  (forall x : num, one_line (num_str x)) -> Forall tidy_var vars -> Forall tidy_global globals ->
  convert E req globals vars = Ok (Some cs) -> In c cs ->
  exists d scom ncom, c_na c = Some d /\ d kSCOM = Some (PList (map PStr scom)) /\ d kNCOM = Some (PList (map PStr ncom)) /\
    Forall (fun l => ~ blank l) (scom ++ ncom).
Proof.
  intros num Num Ar E req globals xr cs c NO Tv Tg R I.
  destruct (convert_from E _ _ _ _ _ R I) as (vs & C & Nc & In1). destruct (c_na c) as [d |] eqn:Nd; [| congruence].
  destruct (collect_steps E _ _ _ _ _ C Nd) as (a & d1 & d2 & g & d3 & v0 & ax0 & Ha & H1 & H2 & Hg & H3 & _ & _ & -> & _ & _).
  unfold defineNAComments in H3. cbv zeta in H3. bindE H3 sc Hsc. injection H3 as <-.
  eexists _, (clean sc), (clean (ncom_of g)). split; [reflexivity |].
  rewrite !(same_header E ax0 _) by (cbn; intuition discriminate).
  split; [reflexivity | split; [reflexivity |]].
  assert (Q : forall v, In v vs -> quiet v).
  { intros v Iv. destruct (In1 v Iv) as (w & Iw & S). rewrite Forall_forall in Tv. exact (quiet_singleton w v (Tv w Iw) S). }
  assert (G : gfine g).
  { unfold defineNAGlobals in Hg. refine (forR_inv gfine _ _ _ _ _ Hg _); [| repeat split; constructor].
    intros p s s' Ip Hp Hs. rewrite Forall_forall in Tg. exact (item_fine E NO p s s' (Tg p Ip) Hs Hp). }
  apply Forall_app. split; apply fine_clean; [| apply ncom_fine, G].
  refine (scom_fine NO g _ _ _ (proj1 G) _ _ Hsc); apply Forall_forall; intros v Iv; apply Q.
  - destruct (analyse_inv E _ _ _ Ha) as (i & best & limited & s & _ & _ & _ & _ & _ & _ & _ & Ez & _). rewrite Ez in Iv.
    apply filter_In in Iv. apply Iv.
  - destruct (analyse_from E _ _ _ Ha) as (F & _). exact (F v Iv).
Qed.

(** texts of a comment list *)
Definition texts (r : option (pyv Z)) : list str :=
  match r with Some (PList l) => flat_map (fun v => match v with PStr s => [s] | _ => [] end) l | _ => [] end.
Definition comments_at (k : key) (r : Res (option (list (collected Z)))) : list str :=
  match got r with c :: _ => match c_na c with Some d => texts (d k) | None => [] end | [] => [] end.

Definition c52_globals : list (str * gval Z) :=
  [(lit "note", gstr (lit "first" ++ [c_nl] ++ lit "second")); (lit "comment", gstr (lit "one" ++ [c_nl; c_nl] ++ lit "two"))].
Definition c52_vars : list (xvar Z) :=
  [var (lit "a") [(lit "source", gstr (lit "sonde" ++ [c_nl] ++ lit "no. 3"))] [xs] (data [1; 2; 3; 4]%Z)].
(** Attributes with two lines, and a [comment] with a blank line between. *)
Example C52_example :
  Forall tidy_var c52_vars /\ Forall tidy_global c52_globals /\
  comments_at kSCOM (convert env_Z None c52_globals c52_vars) =
    map lit ["==== Special Comments follow ===="; "=== Additional Variable Attributes defined in the source file ===";
             "== Variable attributes from source (NetCDF) file follow =="; "  Variable a: a"; "    source = sonde"; "  no. 3";
             "== Variable attributes from source (NetCDF) file end =="; "==== Special Comments end ===="]%pylit /\
  comments_at kNCOM (convert env_Z None c52_globals c52_vars) =
    map lit ["==== Normal Comments follow ===="; "note:   first"; "  second";
             "=== Additional Global Attributes defined in the source file ==="; "one"; "two";
             "==== Normal Comments end ===="; "=== Data Section begins on the next line ==="]%pylit.
Proof.
  assert (NB : forall (s : str) c, In c s -> is_space c = false -> ~ blank s).
  { intros s c I F B. unfold blank in B. rewrite Forall_forall in B. rewrite (B c I) in F. discriminate F. }
  split; [| split; [| split; vm_compute; reflexivity]].
  - constructor; [| constructor]. split; [| split; [| split; [exact I |]]]; [vm_compute; intuition discriminate | intros [] |].
    intros k g [Q | []]. injection Q as <- <-. split; [vm_compute; intuition discriminate |]. split.
    + intros l H. vm_compute in H. destruct H as [<- | []]. apply (NB _ 110%N); [left |]; reflexivity.
    + intros Ik. exfalso. vm_compute in Ik. intuition discriminate.
  - constructor; [| constructor; [| constructor]].
    + split; [vm_compute; intuition discriminate |]. intros _ _ l H. vm_compute in H. destruct H as [<- | []].
      apply (NB _ 115%N); [left |]; reflexivity.
    + split; [vm_compute; intuition discriminate |]. intros C. contradiction C. reflexivity.
Qed.
(** Blank lines inside an attribute survive the cleaning: it looks at whole
    attributes only. *)
Theorem C52_refuted : exists (globals : list (str * gval Z)) vars cs c d scom ncom,
  convert env_Z None globals vars = Ok (Some cs) /\ In c cs /\ c_na c = Some d /\
  d kSCOM = Some (PList (map PStr scom)) /\ d kNCOM = Some (PList (map PStr ncom)) /\
  ~ Forall (fun l => ~ blank l) (scom ++ ncom).
Proof.
  set (globals := [(lit "note", gstr (num := Z) (lit "first" ++ [c_nl; c_nl] ++ lit "second"))]).
  set (vars := [var (lit "a") [] [xs] (data [1; 2; 3; 4]%Z)]).
  exists globals, vars, (got (convert env_Z None globals vars)), (nth 0 (got (convert env_Z None globals vars)) (mkCol None [] [] [] [])).
  eexists _, [], (comments_at kNCOM (convert env_Z None globals vars)).
  split; [vm_compute; reflexivity |]. split; [left; vm_compute; reflexivity |].
  split; [vm_compute; reflexivity |]. split; [vm_compute; reflexivity |]. split; [vm_compute; reflexivity |].
  intros F. rewrite Forall_forall in F. refine (F (lit "  ") _ _); [vm_compute; tauto |]. repeat constructor.
Qed.
Print Assumptions C52_counts.
Print Assumptions C52_partial.
Print Assumptions C52_example.
Print Assumptions C52_refuted.
