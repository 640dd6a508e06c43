(** Property C21: annotation only adds a leading column.  The vocabulary is in
    Spec/AnnotSpec.v; [plain o] and [annotated o] are the options [o] with
    annotation off and on. *)
From Coq Require Import List NArith ZArith Bool Lia.
From Verif Require Import Py.Str Py.Res Py.Num Model.Dict Model.TextParser Model.CommonUtils
  Model.NAWrite Spec.ZNum Spec.Samples Spec.AnnotSpec Spec.WriteSpec
  Proofs.StrLemmas Proofs.NumLemmas Proofs.TextLemmas Proofs.WriteFrame Proofs.WriteSim
  Proofs.HeaderLemmas Proofs.Annot Props.WriteProps.
Import ListNotations.

Section General.
Context {num : Type} `{NumOps num}.

Lemma start_same c cl f (d : na num) o : okd cl c d -> T o cl f f -> S2 o cl c (mkW f [] d) (mkW f [] d).
Proof. intros Hd Hf. split; [reflexivity|]. split; [exact Hd|]. split; [apply T_nil|exact Hf]. Qed.

(** ** Every dictionary *)
(** Whatever the dictionary and the outcome of the write: the annotated write
    has the same outcome, leaves the same dictionary, and its file is the plain
    file with annotation texts (each followed by the delimiter) inserted; in
    particular it has the same number of lines.  With a header, NLHEAD is the
    same number.  Missing from the full claim: an annotation stands at the
    start of each line and nowhere else (next theorem). *)
Theorem C21_every_dictionary_partial : forall (o : opts num) c nh h d r st,
  ann_complete o -> ann_one_line o ->
  write_body (plain o) c nh (mkW [] h d) = (r, st) ->
  exists st', write_body (annotated o) c nh (mkW [] h d) = (r, st') /\
    w_na st' = w_na st /\
    with_annotations o (w_file st) (w_file st') /\
    count_chr c_nl (w_file st') = count_chr c_nl (w_file st).
Proof.
  intros o c nh h d r st Hi H1 E.
  assert (S0 : S2 o False c (mkW [] [] d) (mkW [] [] d)) by (apply start_same; [intros []|apply T_nil]).
  destruct (sim_body o False Hi H1 (False_ind _) (False_ind _) c nh _ _ S0) as ((Q1 & _ & _ & Q2) & Hr).
  change (write_body (plain o) c nh (mkW [] [] d)) with (write_body (plain o) c nh (mkW [] h d)) in *.
  change (write_body (annotated o) c nh (mkW [] [] d)) with (write_body (annotated o) c nh (mkW [] h d)) in *.
  rewrite E in *. destruct (write_body (annotated o) c nh (mkW [] h d)) as [r' st']. simpl in *.
  exists st'. split; [|split; [exact Q1|split]].
  - f_equal. destruct r as [[]|], r' as [[]|]; simpl in Hr; try contradiction; congruence.
  - eapply T_with; eauto.
  - symmetry. eapply T_count; eauto.
Qed.

Theorem C21_nlhead_same : forall (o : opts num) c h d st,
  ann_complete o -> ann_one_line o ->
  write_body (plain o) c false (mkW [] h d) = (Ok tt, st) ->
  exists st' pre ann n ffi rest rest',
    write_body (annotated o) c false (mkW [] h d) = (Ok tt, st') /\
    o_ann o (lit "NLHEAD_FFI") = Some ann /\
    w_file st = pre ++ dec_of_nat n ++ o_delim o ++ ffi ++ nl ++ rest /\
    w_file st' = pre ++ (ann ++ o_delim o) ++ dec_of_nat n ++ o_delim o ++ ffi ++ nl ++ rest'.
Proof.
  intros o c h d st Hi H1 E.
  destruct (C21_every_dictionary_partial o c false h d _ _ Hi H1 E) as (st' & E' & _).
  exists st'.
  destruct (body_ok _ c [] h d st E) as (s1 & A1 & A2).
  destruct (body_ok _ c [] h d st' E') as (s2 & B1 & B2).
  assert (Hd : ~ In c_nl (o_delim o)) by apply H1.
  destruct (header_self_counting (plain o) c [] [] d s1 A1 Hd) as (pre & hdr & an & ffi & n & F1 & F2 & F3 & (F4 & _ & F5) & F6 & _).
  { intros a. unfold getAnnotation. simpl. intros [= <-] []. }
  destruct (header_self_counting (annotated o) c [] [] d s2 B1 Hd) as (pre' & hdr' & an' & ffi' & n' & G1 & G2 & G3 & (G4 & _ & G5) & G6 & _).
  { intros a Ha. destruct (get_ann o Hi H1 (lit "NLHEAD_FFI") None) as (x & Ex & _ & Hx); [repeat first [left; reflexivity|right]|]. congruence. }
  assert (pre' = pre) as -> by (rewrite F6 in G6; injection G6 as ->; reflexivity).
  assert (ffi' = ffi) as -> by congruence.
  assert (S0 : S2 o False c (mkW [] [] d) (mkW [] [] d)) by (apply start_same; [intros []|apply T_nil]).
  destruct (sim_header o False Hi H1 (False_ind _) (False_ind _) c _ _ S0) as ((_ & _ & _ & Q2) & _).
  rewrite A1, B1 in Q2. simpl in Q2. apply T_count in Q2; auto. rewrite F1, G1 in Q2. cbn [app] in Q2.
  rewrite !count_chr_app in Q2.
  assert (n' = n) as -> by lia.
  destruct (dstep_data _ c _ _ _ A2) as ((dat & Ed) & _).
  destruct (dstep_data _ c _ _ _ B2) as ((dat' & Ed') & _).
  unfold getAnnotation in F2, G2. simpl in F2, G2. injection F2 as <-.
  destruct (o_ann o _) as [a|] eqn:Ea; [|discriminate]. injection G2 as <-.
  destruct F4 as (rest & F4). destruct G4 as (rest' & G4).
  exists pre, a, n, ffi, (rest ++ dat), (rest' ++ dat').
  split; [exact E'|]. split; [reflexivity|]. rewrite Ed, Ed', F1, G1, F4, G4. simpl.
  rewrite <- !app_assoc. auto.
Qed.

(** ** Line by line *)
(** When no text of the dictionary and no printed number contains a line break
    character, each number has a visible digit, and the header items that must
    fit on one line do ([one_line_items]): the annotated file has the lines of
    the plain file in the same order, each preceded by an annotation and the
    delimiter.  Missing from the full claim: the dictionaries excluded by these
    hypotheses, for which it is false (below). *)
Theorem C21_annotation_partial : forall (o : opts num) c nh h d r st,
  ann_complete o -> ann_one_line o ->
  unbroken_opts o -> (forall x, visible (o_fmt o x)) ->
  unbroken_dict d -> one_line_items c d ->
  write_body (plain o) c nh (mkW [] h d) = (r, st) ->
  exists st', write_body (annotated o) c nh (mkW [] h d) = (r, st') /\
    Forall2 (ann_line o) (lines (w_file st)) (lines (w_file st')).
Proof.
  intros o c nh h d r st Hi H1 Hu Hv Hd Hl E.
  assert (S0 : S2 o True c (mkW [] [] d) (mkW [] [] d)) by (apply start_same; [intros _; split; auto|apply T_nil]).
  destruct (sim_body o True Hi H1 (fun _ => Hu) (fun _ => Hv) c nh _ _ S0) as ((Q1 & _ & _ & Q2) & Hr).
  change (write_body (plain o) c nh (mkW [] [] d)) with (write_body (plain o) c nh (mkW [] h d)) in *.
  change (write_body (annotated o) c nh (mkW [] [] d)) with (write_body (annotated o) c nh (mkW [] h d)) in *.
  rewrite E in *. destruct (write_body (annotated o) c nh (mkW [] h d)) as [r' st']. simpl in *.
  exists st'. split.
  - f_equal. destruct r as [[]|], r' as [[]|]; simpl in Hr; try contradiction; congruence.
  - eapply T_lines; eauto.
Qed.
End General.

(** ** Where the claim fails *)
(** A variable name with a vertical tab: the annotator splits it into two
    lines, so an annotation appears in the middle of the line of the file. *)
Definition d1001_vt : na Z := upd d1001 kVNAME (ls [PStr (lit "temp" ++ [11%N] ++ lit "K"); tx "pressure (hPa)"]).
(** FFI 2160 with an ignored header line, which is written without annotation. *)
Definition d2160_ign : na Z := upd d2160 kIGN (ls [tx "# an ignored line"]).
Definition opts_b : opts Z := mkOpts (lit ",") dec_of_Z true (fun _ => Some (lit "Note")).
Lemma opts_b_complete : ann_complete opts_b.
Proof. intros i _. eexists. reflexivity. Qed.
Lemma opts_b_one : ann_one_line opts_b.
Proof.
  split.
  - intros [E|[]]. discriminate.
  - intros i a [= <-]. vm_compute. intuition discriminate.
Qed.

(** A decidable consequence of [ann_line]: the plain line ends the annotated one. *)
Definition suffixb (l l' : str) : bool :=
  Nat.ltb (length l) (length l') && str_eqb (skipn (length l' - length l) l') l.
Fixpoint all2 {A} (f : A -> A -> bool) (l l' : list A) : bool :=
  match l, l' with
  | [], [] => true
  | x :: r, y :: r' => f x y && all2 f r r'
  | _, _ => false
  end.
Lemma ann_suffix l l' : ann_line opts_b l l' -> suffixb l l' = true.
Proof.
  intros (a & (i & t & _ & [= <-] & Ha) & ->). unfold suffixb. apply andb_true_iff. split.
  - apply Nat.ltb_lt. rewrite !app_length. destruct Ha as [-> | (n & ->)]; [|rewrite app_length]; simpl; lia.
  - apply str_eqb_eq. rewrite app_assoc, app_length.
    replace (length (a ++ o_delim opts_b) + length l - length l)%nat with (length (a ++ o_delim opts_b)) by lia.
    now rewrite skipn_app, skipn_all, Nat.sub_diag.
Qed.
Lemma ann_all2 p q : Forall2 (ann_line opts_b) p q -> all2 suffixb p q = true.
Proof. induction 1; simpl; auto. rewrite ann_suffix by auto. auto. Qed.

(** Deciding [unbroken_dict] for a concrete dictionary. *)
Fixpoint unbrokenb {num} (v : pyv num) : bool :=
  match v with
  | PStr s => forallb (fun c => negb (is_linebreak c)) s
  | PList l => forallb unbrokenb l
  | _ => true
  end.
Lemma unbrokenb_ok {num} : forall v : pyv num, unbrokenb v = true -> unbroken_val v.
Proof.
  fix IH 1. intros [| | |s|l] Hv; try constructor.
  - intros c Hc. simpl in Hv. rewrite forallb_forall in Hv. apply Hv in Hc. now apply negb_true_iff in Hc.
  - simpl in Hv. induction l as [|x l IHl]; [constructor|]. simpl in Hv.
    apply andb_true_iff in Hv as [H1 H2]. constructor; auto.
Qed.
Definition all_keys : list key :=
  [kA; kAMISS; kANAME; kASCAL; kDATE; kDX; kFFI; kIVOL; kLENA; kLENX; kMNAME; kNAUXC; kNAUXV; kNCOM; kNIV;
   kNLHEAD; kNNCOML; kNSCOML; kNV; kNVOL; kNVPM; kNX; kNXDEF; kONAME; kORG; kRDATE; kSCOM; kSNAME; kV;
   kVMISS; kVNAME; kVSCAL; kX; kXNAME; kIGN].
Lemma unbroken_dict_ok {num} (d : na num) :
  forallb (fun k => match d k with Some v => unbrokenb v | None => true end) all_keys = true -> unbroken_dict d.
Proof.
  rewrite forallb_forall. intros Hd k v E. apply unbrokenb_ok.
  assert (Hk : In k all_keys) by (destruct k; simpl; tauto). specialize (Hd k Hk). now rewrite E in Hd.
Qed.
Lemma dec_visible z : visible (dec_of_Z z).
Proof.
  unfold visible. destruct (dec_of_Z z) as [|c s] eqn:E; [now apply dec_of_Z_nonnil in E|].
  exists c. split; [now left|]. pose proof (dec_of_Z_chars z) as Hc. rewrite E in Hc. simpl in Hc.
  apply andb_true_iff in Hc as [Hc _]. unfold is_intchr in Hc. apply orb_true_iff in Hc as [Hc|Hc].
  - apply is_digit_range in Hc.
    assert (K : (c = 48 \/ c = 49 \/ c = 50 \/ c = 51 \/ c = 52 \/ c = 53 \/ c = 54 \/ c = 55 \/ c = 56 \/ c = 57)%N) by lia.
    repeat (destruct K as [->|K]; [split; [reflexivity|discriminate]|]). subst. split; [reflexivity|discriminate].
  - apply N.eqb_eq in Hc. subst. split; [reflexivity|discriminate].
Qed.
Lemma opts_b_unbroken : unbroken_opts opts_b.
Proof.
  split; [|split; intros x; apply ub_dec]. intros c [<-|[]]. reflexivity.
Qed.

Theorem C21_refuted : exists (o : opts Z) c d st st',
  ann_complete o /\ ann_one_line o /\
  write_body (plain o) c false (mkW [] [] d) = (Ok tt, st) /\
  write_body (annotated o) c false (mkW [] [] d) = (Ok tt, st') /\
  ~ Forall2 (ann_line o) (lines (w_file st)) (lines (w_file st')).
Proof.
  exists opts_b, C1001, d1001_vt. do 2 eexists.
  split; [exact opts_b_complete|]. split; [exact opts_b_one|].
  split; [apply run_pair; vm_compute; reflexivity|].
  split; [apply run_pair; vm_compute; reflexivity|].
  intros Hf. apply ann_all2 in Hf. vm_compute in Hf. discriminate.
Qed.
Theorem C21_ignored_lines_refuted : exists (o : opts Z) d st st',
  ann_complete o /\ ann_one_line o /\ unbroken_dict d /\
  write_body (plain o) C2160 false (mkW [] [] d) = (Ok tt, st) /\
  write_body (annotated o) C2160 false (mkW [] [] d) = (Ok tt, st') /\
  ~ Forall2 (ann_line o) (lines (w_file st)) (lines (w_file st')).
Proof.
  exists opts_b, d2160_ign. do 2 eexists.
  split; [exact opts_b_complete|]. split; [exact opts_b_one|].
  split; [apply unbroken_dict_ok; vm_compute; reflexivity|].
  split; [apply run_pair; vm_compute; reflexivity|].
  split; [apply run_pair; vm_compute; reflexivity|].
  intros Hf. apply ann_all2 in Hf. vm_compute in Hf. discriminate.
Qed.

(** Examples: the hypotheses hold of non-trivial dictionaries, and what the
    annotated file then looks like. *)
Example C21_example_hyps :
  ann_complete opts_b /\ ann_one_line opts_b /\ unbroken_opts opts_b /\ (forall x, visible (o_fmt opts_b x)) /\
  Forall (fun p => unbroken_dict (snd p) /\ one_line_items (fst p) (snd p))
    [(C1001, d1001); (C1010, d1010); (C1020, d1020); (C2010, d2010); (C2110, d2110); (C2160, d2160); (C2310, d2310)].
Proof.
  split; [exact opts_b_complete|]. split; [exact opts_b_one|]. split; [exact opts_b_unbroken|].
  split; [exact dec_visible|].
  repeat (apply Forall_cons; [split; [apply unbroken_dict_ok; vm_compute; reflexivity|]|]); auto; simpl; auto.
  exists [1%Z]. split; [reflexivity|]. repeat constructor.
Qed.
Example C21_example_2010 : exists st st',
  write_body (plain opts_b) C2010 false (mkW [] [] d2010) = (Ok tt, st) /\
  write_body (annotated opts_b) C2010 false (mkW [] [] d2010) = (Ok tt, st') /\
  length (lines (w_file st)) = length (lines (w_file st')) /\
  nth 0 (lines (w_file st')) [] = lit "Note," ++ nth 0 (lines (w_file st)) [] /\
  nth 11 (lines (w_file st')) [] = lit "Note 1," ++ nth 11 (lines (w_file st)) [].
Proof.
  do 2 eexists.
  split; [apply run_pair; vm_compute; reflexivity|].
  split; [apply run_pair; vm_compute; reflexivity|].
  vm_compute. auto.
Qed.

Print Assumptions C21_every_dictionary_partial.
Print Assumptions C21_nlhead_same.
Print Assumptions C21_annotation_partial.
Print Assumptions C21_refuted.
Print Assumptions C21_ignored_lines_refuted.

