(** C69 to C74: the conversions of nappy_api.py. *)
From Coq Require Import List NArith ZArith Bool Lia.
From Verif Require Import Spec.Records Spec.RecordSamples Py.Str Py.Res Py.Num Py.Arith Model.Dict Model.TextParser Model.CommonUtils Model.NAWrite Model.NARead
  Model.NACore Model.Utils Model.NCWrite Model.Xarray Model.Collector Model.ToXarray Model.Api Spec.RowSpec Spec.RoundTripSpec 
  Spec.ZNum Spec.Samples Spec.WholeNum Spec.CollectorSpec Spec.ApiSpec Proofs.StrLemmas Proofs.WriteFrame Proofs.ReadFrame Proofs.ReadFile
  Spec.Binary64 Proofs.CollectorLemmas Proofs.Delim Props.DelimProps Props.ToXarrayProps Props.ToXarrayMore Props.CollectorProps.
Import ListNotations.
Local Open Scope nat_scope.

(** * C69 *)
Section C69.
Context {num : Type} `{NumOps num}.
(** The name of the file that [convertNAToCSV] writes. *)
Definition csv_name (na_file : str) (csv_file : option str) : str :=
  match csv_file with Some f => f | None => getFileNameWithNewExtension na_file (lit "csv") end.
Lemma opened_again content c (d : na num) : read_file content 0 = Ok (c, d) -> openNAFile_w d = Ok (c, d).
Proof.
  intros E. unfold read_file in E. destruct (openNAFile_r content 0) as [[c' h]|] eqn:Eo; cbn [bindR fst snd] in E; [|discriminate].
  destruct (readData h c' content) as [d'|] eqn:Ed; cbn [bindR] in E; [|discriminate]. injection E as -> ->.
  destruct (top_line_read _ _ _ _ Eo) as (nlh & ffi & _ & _ & Hf & Hc).
  unfold openNAFile_w. rewrite (readData_frame _ _ _ _ Ed) by (cbn; intuition discriminate). rewrite Hf, Hc. reflexivity.
Qed.

(** Without annotation: the conversion fails where writing the NASA Ames file
    again fails, with the same error, and otherwise writes the rows of that file,
    separated by commas. *)
Theorem C69_rows_partial : forall (o : opts num) na_file content csv_file no_header c d fs,
  o_annot o = false -> solid_numbers o -> blank_or_comma (o_delim o) -> read_file content 0 = Ok (c, d) ->
  exists rows, w_file (snd (write_body o c false (mkW [] [] d))) = rows_text (o_delim o) rows /\
    convertNAToCSV (o_fmt o) (o_ann o) na_file content csv_file false no_header fs =
    (fst (write_body o c false (mkW [] [] d)), sd_set fs (csv_name na_file csv_file) (rows_text (lit ",") rows)).
Proof.
  intros o na_file content csv_file nh c d fs Ha Hs Hd Er.
  pose proof (C67_rows_partial o (lit ",") c false [] d Ha Hs Hd) as K.
  destruct (write_body o c false (mkW [] [] d)) as [r s] eqn:E1.
  destruct (write_body (with_delim o (lit ",")) c false (mkW [] [] d)) as [r' s'] eqn:E2.
  destruct K as (-> & _ & rows & F1 & F2); [intros x Hx; right; destruct Hx as [<-|[]]; reflexivity|].
  exists rows. cbn [fst snd]. split; [exact F1|]. unfold convertNAToCSV. rewrite Er. unfold put_file. rewrite (opened_again _ _ _ Er).
  assert (mkOpts (lit ",") (o_fmt o) false (o_ann o) = with_delim o (lit ",")) as -> by (unfold with_delim; now rewrite Ha).
  rewrite E2, F2. reflexivity.
Qed.
(** A file that nappy wrote (and that would be written again the same, see
    C17_same_again_partial) becomes the CSV file of its own rows. *)
Theorem C69_same_rows_partial : forall (o : opts num) c d st na_file csv_file no_header fs,
  o_annot o = false -> solid_numbers o -> blank_or_comma (o_delim o) -> same_again o c d ->
  write_body o c false (mkW [] [] d) = (Ok tt, st) ->
  exists rows, w_file st = rows_text (o_delim o) rows /\
    convertNAToCSV (o_fmt o) (o_ann o) na_file (w_file st) csv_file false no_header fs =
    (Ok tt, sd_set fs (csv_name na_file csv_file) (rows_text (lit ",") rows)).
Proof.
  intros o c d st na_file csv_file nh fs Ha Hs Hd Hsame Ew.
  destruct (Hsame [] []) as (file & hdr & d2 & d' & hdr' & d2' & W1 & R1 & W2). rewrite Ew in W1. injection W1 as ->.
  destruct (C69_rows_partial o na_file file csv_file nh c d' fs Ha Hs Hd R1) as (rows & F & K). rewrite W2 in F, K. cbn [fst snd w_file] in *.
  exists rows. auto.
Qed.
End C69.
Print Assumptions C69_rows_partial.
Print Assumptions C69_same_rows_partial.

(** The argument [no_header] is ignored: the CSV file has the header all the
    same, and is not the file that [write] makes without header. *)
Theorem C69_refuted : exists (content out : str) (c : cls) (d : na Z),
  read_file content 0 = Ok (c, d) /\
  (forall no_header, convertNAToCSV dec_of_Z (fun _ => None) (lit "a.na") content (Some (lit "a.csv")) false no_header [] = (Ok tt, [(lit "a.csv", out)])) /\
  fst (write_body (mkOpts (lit ",") dec_of_Z false (fun _ => None)) c true (mkW [] [] d)) = Ok tt /\
  w_file (snd (write_body (mkOpts (lit ",") dec_of_Z false (fun _ => None)) c true (mkW [] [] d))) <> out.
Proof.
  set (content := w_file (snd (write_body opts0 C1001 false (mkW [] [] d1001)))).
  set (out := snd (nth 0 (snd (convertNAToCSV dec_of_Z (fun _ => None) (lit "a.na") content (Some (lit "a.csv")) false true [])) ([], []))).
  assert (K : match read_file (num:=Z) content 0 with
              | Ok (c, d) => let p := write_body (mkOpts (lit ",") dec_of_Z false (fun _ => None)) c true (mkW [] [] d) in
                             match fst p with Ok _ => str_eqb (w_file (snd p)) out | Err _ => true end
              | Err _ => true end = false) by (vm_compute; reflexivity).
  destruct (read_file (num:=Z) content 0) as [[c d]|] eqn:Er; [|discriminate]. cbv zeta in K.
  exists content, out, c, d. split; [exact Er|]. split.
  - intros nh. unfold out, content. destruct nh; vm_compute; reflexivity.
  - destruct (write_body (mkOpts (lit ",") dec_of_Z false (fun _ => None)) c true (mkW [] [] d)) as [[[]|] st]; [|discriminate].
    cbn [fst snd] in *. split; [reflexivity|]. apply not_true_iff_false in K. intros E. apply K. apply str_eqb_eq. exact E.
Qed.
Print Assumptions C69_refuted.
Example C69_example : exists rows, length rows = 22 /\
  w_file (snd (write_body opts0 C1001 false (mkW [] [] d1001))) = rows_text (lit "    ") rows /\
  convertNAToCSV dec_of_Z (fun _ => None) (lit "a.na") (w_file (snd (write_body opts0 C1001 false (mkW [] [] d1001)))) None false false [] =
  (Ok tt, [(lit "a.na.csv", rows_text (lit ",") rows)]).
Proof. exists rows1001. split; [reflexivity|]. split; vm_compute; reflexivity. Qed.

(** * C70 *)
Section C70.
Context {num : Type} `{NumOps num} `{ArithOps num}.
Local Notation xvar := (xvar num).
Lemma mapR_one {A B} (f : A -> Res B) l r i v : mapR f l = Ok r -> nth_error r i = Some v -> exists a, nth_error l i = Some a /\ f a = Ok v.
Proof.
  revert r i. induction l as [|a l IH]; intros r i E Hi; cbn [mapR] in E.
  - injection E as <-. destruct i; discriminate.
  - destruct (f a) as [b|] eqn:Ea; cbn [bindR] in E; [|discriminate]. destruct (mapR f l) as [t|] eqn:El; cbn [bindR] in E; [|discriminate].
    injection E as <-. destruct i as [|i]; cbn [nth_error] in *; [injection Hi as <-; eauto|eauto].
Qed.

Lemma toXarray_number answers now version d o i v : toXarray (plain_set SAll answers now version) d = Ok o -> nth_error (o_vars o) i = Some v ->
  exists o', toXarray (plain_set (SNums [i]) answers now version) d = Ok o' /\ o_vars o' = [v].
Proof.
  unfold toXarray. cbn [plain_set t_now t_version t_globals t_callback t_warning t_units t_answers t_vars t_aux t_rename]. intros E Hi.
  destruct (as_int (attr d kFFI)) as [ffi|]; cbn [bindR] in *; [|discriminate].
  destruct (existsb (Z.eqb ffi) [2110; 2160; 2310]%Z); [discriminate|]. cbv zeta in *.
  destruct (mapNACommentsToGlobalAttributes now version d []) as [g|]; cbn [bindR] in *; [|discriminate].
  destruct (convertAxes None true None answers d) as [axes|]; cbn [bindR] in *; [|discriminate].
  destruct (selected_main d SAll) as [is|] eqn:Es; cbn [bindR] in *; [|discriminate].
  destruct (mapR _ is) as [vars|] eqn:Ev; cbn [bindR] in *; [|discriminate].
  match type of E with bindR ?x _ = _ => destruct x as [aux|] eqn:Ea; cbn [bindR] in *; [|discriminate] end.
  injection E as <-. cbn [o_vars] in Hi. destruct (mapR_one _ _ _ _ _ Ev Hi) as (a & Hn & Ha).
  assert (a = i) as ->.
  { cbn [selected_main] in Es. destruct (as_int (attr d kNV)) as [nv|]; cbn [bindR] in Es; [|discriminate]. injection Es as <-.
    unfold range in Hn. pose proof (nth_error_nth _ _ O Hn) as K. rewrite seq_nth in K; [exact (eq_sym K)|].
    pose proof (proj1 (nth_error_Some (seq 0 (Z.to_nat nv)) i) ltac:(congruence)) as L. now rewrite seq_length in L. }
  cbn [selected_main bindR mapR]. rewrite Ha. cbn [bindR]. eexists. split; [reflexivity|]. reflexivity.
Qed.
(** The variable of a number is the one of that number among all converted
    variables. *)
Theorem C70_number : forall answers now version content o i v,
  readXarrayObjectsFromNA answers now version content = Ok o -> nth_error (o_vars o) i = Some v ->
  getXarrayVariableFromNA answers now version content (WNum i) = Ok v.
Proof.
  intros answers now version content o i v E Hi. unfold readXarrayObjectsFromNA in E. unfold getXarrayVariableFromNA.
  destruct (read_file content 0) as [[c d]|]; cbn [bindR snd] in *; [|discriminate].
  destruct (toXarray_number _ _ _ _ _ _ _ E Hi) as (o' & -> & Ev). cbn [bindR]. rewrite Ev. reflexivity.
Qed.
(** Also when other variables cannot be converted: what is returned has that
    number, and is made from the values of that number. *)
Theorem C70_number_only : forall answers now version content i v,
  getXarrayVariableFromNA answers now version content (WNum i) = Ok v ->
  n_attr (v_info v) (lit "nasa_ames_var_number") = Some (gint (Z.of_nat i)) /\
  exists c d values, read_file content 0 = Ok (c, d) /\ index (attr d kV) i = Ok values.
Proof.
  intros answers now version content i v E. unfold getXarrayVariableFromNA in E.
  destruct (read_file content 0) as [[c d]|]; cbn [bindR snd] in *; [|discriminate].
  destruct (toXarray _ d) as [o|] eqn:Eo; cbn [bindR] in E; [|discriminate].
  destruct (C59_partial _ _ _ _ _ _ Eo) as (is & F & _ & Hn & _). rewrite (Hn [i] eq_refl) in F.
  inversion F as [|? w ? ? (K1 & values & K2) F' E0 E1]; subst. rewrite <- E1 in E. injection E as ->. split; [exact K1|]. eauto.
Qed.
Lemma toXarray_selected x y answers now version d : selected_main d x = selected_main d y ->
  toXarray (plain_set x answers now version) d = toXarray (plain_set y answers now version) d.
Proof.
  intros K. unfold toXarray. cbn [plain_set t_now t_version t_globals t_callback t_warning t_units t_answers t_vars t_aux t_rename].
  destruct (as_int (attr d kFFI)) as [ffi|]; cbn [bindR]; [|reflexivity]. destruct (existsb _ _); [reflexivity|]. cbv zeta.
  destruct (mapNACommentsToGlobalAttributes now version d []) as [g|]; cbn [bindR]; [|reflexivity].
  destruct (convertAxes None true None answers d) as [axes|]; cbn [bindR]; [|reflexivity]. rewrite K. reflexivity.
Qed.
(** A name that does not start with a digit stands for the number of the first
    variable with that name. *)
Theorem C70_name_partial : forall answers now version content c d names s i,
  read_file content 0 = Ok (c, d) -> attr d kVNAME = PList names ->
  (forall x t, s = x :: t -> is_digit x = false) ->
  nth_error names i = Some (PStr s) -> (forall j, j < i -> nth_error names j <> Some (PStr s)) ->
  getXarrayVariableFromNA answers now version content (WName s) = getXarrayVariableFromNA answers now version content (WNum i).
Proof.
  intros answers now version content c d names s i Er En Hs Hi Hj. unfold getXarrayVariableFromNA. rewrite Er. cbn [bindR snd].
  rewrite (toXarray_selected (SStrs [s]) (SNums [i])); [reflexivity|].
  cbn [selected_main]. assert (match s with [] => false | x :: _ => is_digit x end = false) as -> by (destruct s; eauto).
  rewrite En. cbn [mapR as_list bindR]. destruct (position s names 0) as [j|] eqn:P.
  - destruct (position_spec _ _ _ _ P) as (k & -> & A & B). cbn [of_opt bindR Nat.add].
    destruct (lt_eq_lt_dec k i) as [[L| -> ]|L]; [exfalso; exact (Hj k L A)|reflexivity|exfalso; exact (B i L Hi)].
  - exfalso. apply (position_none _ _ _ P). eapply nth_error_In; eauto.
Qed.
(** Other names that do not start with a digit are refused. *)
Theorem C70_unknown_partial : forall answers now version content c d names s,
  read_file content 0 = Ok (c, d) -> attr d kVNAME = PList names ->
  (forall x t, s = x :: t -> is_digit x = false) -> ~ In (PStr s) names ->
  exists e, getXarrayVariableFromNA answers now version content (WName s) = Err e.
Proof.
  intros answers now version content c d names s Er En Hs Hn. destruct (getXarrayVariableFromNA _ _ _ _ _) as [v|] eqn:E; [exfalso|eauto].
  unfold getXarrayVariableFromNA in E. rewrite Er in E. cbn [bindR snd] in E.
  destruct (toXarray _ d) as [o|] eqn:Eo; cbn [bindR] in E; [|discriminate].
  destruct (C59_partial _ _ _ _ _ _ Eo) as (is & _ & _ & _ & K). destruct (K s [] eq_refl Hs) as (names' & E' & F). rewrite En in E'. injection E' as <-.
  inversion F as [|? ? ? ? (A & _) _]; subst. apply Hn. eapply nth_error_In; eauto.
Qed.
End C70.
Print Assumptions C70_number.
Print Assumptions C70_number_only.
Print Assumptions C70_name_partial.
Print Assumptions C70_unknown_partial.

(** False of the code: a name that starts with a digit is taken for a number, so
    the variable called 0 may be another one than the one that is found. *)
Definition f_digits : str := file_1001 (lit "height (m)") (lit "1 1") (lit "-9999 -9999") (map lit ["1"; "0"]%pylit) (map lit ["0 280 1"; "10 281 2"]%pylit).
Theorem C70_refuted : exists content c d (v w : xvar b64),
  read_file (num := b64) content 0 = Ok (c, d) /\ attr d kVNAME = PList [PStr (lit "1"); PStr (lit "0")] /\
  getXarrayVariableFromNA [] (lit "now") (lit "v") content (WName (lit "0")) = Ok v /\
  getXarrayVariableFromNA [] (lit "now") (lit "v") content (WNum 1) = Ok w /\ v_name v = lit "1" /\ v_name w = lit "0".
Proof.
  exists f_digits.
  assert (K : match read_file (num := b64) f_digits 0, getXarrayVariableFromNA (num := b64) [] (lit "now") (lit "v") f_digits (WName (lit "0")),
                    getXarrayVariableFromNA (num := b64) [] (lit "now") (lit "v") f_digits (WNum 1) with
              | Ok (c, d), Ok v, Ok w => (attr d kVNAME, v_name v, v_name w) = (PList [PStr (lit "1"); PStr (lit "0")], lit "1", lit "0")
              | _, _, _ => False
              end) by (vm_compute; reflexivity).
  destruct (read_file (num := b64) f_digits 0) as [[c d]|]; [|destruct K].
  destruct (getXarrayVariableFromNA (num := b64) [] (lit "now") (lit "v") f_digits (WName (lit "0"))) as [v|]; [|destruct K].
  destruct (getXarrayVariableFromNA (num := b64) [] (lit "now") (lit "v") f_digits (WNum 1)) as [w|]; [|destruct K].
  injection K as K1 K2 K3. exists c, d, v, w. auto 10.
Qed.
Print Assumptions C70_refuted.
Example C70_example :
  match getXarrayVariableFromNA (num := b64) [] (lit "now") (lit "v") f_two (WName (lit "Temp (K)")),
        getXarrayVariableFromNA (num := b64) [] (lit "now") (lit "v") f_two (WNum 1),
        readXarrayObjectsFromNA (num := b64) [] (lit "now") (lit "v") f_two with
  | Ok v, Ok w, Ok o => v_name v = lit "temp" /\ v_name w = lit "3he" /\ o_vars o = [v; w]
  | _, _, _ => False
  end.
Proof. vm_compute. auto. Qed.

(** * C71 *)
Section C71.
Context {num : Type}.
Local Notation xvar := (xvar num).
Lemma replace_blank s : replace_str (lit " ") (lit "_") s = map (fun c => if N.eqb c c_sp then c_us else c) s.
Proof.
  unfold replace_str. induction s as [|c s IH]; [reflexivity|]. cbn [replace_aux map].
  change (lit " ") with [c_sp] in *. cbn [starts_with]. rewrite (N.eqb_sym c_sp c). destruct (N.eqb c c_sp); cbn [andb pred length]; [|now rewrite IH].
  change (lit "_") with [c_us] in *. cbn [app]. now rewrite IH.
Qed.
Lemma safe_chr a b : (if N.eqb (lower_chr a) c_sp then c_us else lower_chr a) = (if N.eqb (lower_chr b) c_sp then c_us else lower_chr b) <-> alike_chr a b.
Proof.
  unfold alike_chr. assert (L : forall x, lower_chr x = c_sp <-> x = c_sp).
  { intros x. unfold lower_chr, c_sp. destruct ((65 <=? x)%N && (x <=? 90)%N) eqn:E; [|tauto].
    apply andb_prop in E as [E1 E2]. apply N.leb_le in E1, E2. split; intros; lia. }
  assert (L2 : forall x, lower_chr x = c_us <-> x = c_us).
  { intros x. unfold lower_chr, c_us. destruct ((65 <=? x)%N && (x <=? 90)%N) eqn:E; [|tauto].
    apply andb_prop in E as [E1 E2]. apply N.leb_le in E1, E2. split; intros; lia. }
  destruct (N.eqb_spec (lower_chr a) c_sp) as [Ea|Ea], (N.eqb_spec (lower_chr b) c_sp) as [Eb|Eb].
  - split; [|reflexivity]. left. congruence.
  - apply (proj1 (L a)) in Ea. split.
    + intros E. symmetry in E. apply (proj1 (L2 b)) in E. right. split; auto.
    + intros [E|[_ [E|E]]]; [exfalso; apply Eb; rewrite <- E; now apply L|exfalso; apply Eb; now apply L|symmetry; now apply L2].
  - apply (proj1 (L b)) in Eb. split.
    + intros E. apply (proj1 (L2 a)) in E. right. split; auto.
    + intros [E|[[E|E] _]]; [exfalso; apply Ea; rewrite E; now apply L|exfalso; apply Ea; now apply L|now apply L2].
  - split; [auto|]. intros [E|[[E|E] [E'|E']]]; [exact E| | | |]; try (exfalso; apply Ea; now apply L); try (exfalso; apply Eb; now apply L). congruence.
Qed.
Lemma safe_name_alike a b : safe_name a = safe_name b <-> alike a b.
Proof.
  unfold safe_name, alike. rewrite !replace_blank. unfold lower. rewrite !map_map. revert b.
  induction a as [|x a IH]; intros [|y b]; cbn [map]; split; intros E; try discriminate; try (inversion E; fail); [constructor|reflexivity| |].
  - injection E as E1 E2. constructor; [now apply safe_chr|now apply IH].
  - inversion E; subst. f_equal; [now apply safe_chr|now apply IH].
Qed.
Lemma fuzzy_spec name l : fuzzy_contains name l = true <-> exists e, In e l /\ alike e name.
Proof.
  unfold fuzzy_contains. rewrite existsb_exists. setoid_rewrite in_map_iff. split.
  - intros (x & (e & <- & He) & K). apply str_eqb_eq in K. exists e. split; [exact He|]. apply safe_name_alike. now symmetry.
  - intros (e & He & K). exists (safe_name e). split; [eauto|]. apply str_eqb_eq. symmetry. now apply safe_name_alike.
Qed.
Lemma wanted_spec i name : wanted i name = true <-> asked i name.
Proof. destruct i; cbn; [tauto|apply str_eqb_eq|apply mem_str_in]. Qed.
Lemma bounds_spec (ds : dataset num) l name : bounds_vars ds = Ok l -> existsb (is_text name) l = true <-> is_bounds ds name.
Proof.
  unfold bounds_vars, is_bounds. intros E. rewrite existsb_exists.
  assert (K : forall v, In v l <-> (exists w g, In w (ds_vars ds) /\ n_attr (v_info w) (lit "bounds") = Some g /\ g_val g = v)).
  { assert (G : forall gs r, mapR (fun g : gval num => match g_val g with PList _ => Err ETypeError | v => Ok v end) gs = Ok r -> r = map g_val gs).
    { clear. induction gs as [|g gs IH]; intros r E; cbn [mapR] in E; [now injection E as <-|].
      destruct (match g_val g with PList _ => Err ETypeError | v => Ok v end) as [b|] eqn:Eg; cbn [bindR] in E; [|discriminate].
      destruct (mapR _ gs) as [t|] eqn:Et; cbn [bindR] in E; [|discriminate]. injection E as <-. cbn [map]. rewrite (IH _ eq_refl).
      f_equal. destruct (g_val g); congruence. }
    apply G in E. subst l. intros v. rewrite in_map_iff. setoid_rewrite in_flat_map. split.
    - intros (g & <- & w & Hw & Hg). exists w, g. destruct (n_attr (v_info w) (lit "bounds")) as [g'|] eqn:En; cbn in Hg; [|destruct Hg].
      destruct Hg as [-> |[]]. auto.
    - intros (w & g & Hw & En & <-). exists g. split; [reflexivity|]. exists w. split; [exact Hw|]. rewrite En. now left. }
  split.
  - intros (v & Hv & T). apply K in Hv as (w & g & Hw & En & <-). exists w, g. unfold is_text in T.
    destruct (g_val g); try discriminate. apply str_eqb_eq in T as ->. auto.
  - intros (w & g & Hw & En & Eg). exists (PStr name). split; [apply K; eauto|]. cbn. now apply str_eqb_eq.
Qed.
(** What is converted are the variables of the file that were asked for and not
    excluded, without the bounds of other variables, in the order of the file,
    with their names, attributes, axes and values. *)
Theorem C71_selected : forall (ds : dataset num) i exclude l,
  readXarrayFile ds i exclude true = Ok l ->
  exists kept, only (to_convert ds i exclude) kept (ds_vars ds) /\ Forall2 same_variable l kept.
Proof.
  intros ds i ex l. unfold readXarrayFile. destruct (bounds_vars ds) as [bs|] eqn:Eb; cbn [bindR]; [|discriminate]. intros E. injection E as <-.
  assert (D : forall v : xvar, same_variable (rebuilt v) v).
  { intros v. unfold rebuilt, same_variable, rank. destruct (Nat.eqb_spec (length (v_axes v)) 0) as [E|]; [|auto].
    apply length_zero_iff_nil in E. cbn. rewrite E. auto. }
  generalize (ds_vars ds). intros vs. induction vs as [|v vs (kept & IH1 & IH2)]; [exists []; split; constructor|]. cbn [flat_map].
  assert (B := bounds_spec ds bs (v_name v) Eb).
  destruct (wanted i (v_name v)) eqn:Ew; [apply wanted_spec in Ew|].
  - destruct (fuzzy_contains (v_name v) ex) eqn:Ef; cbn [negb].
    + exists kept. split; [|exact IH2]. constructor; [|exact IH1]. intros (_ & K & _). apply fuzzy_spec in Ef as (e & He & A). exact (K e He A).
    + cbn [andb]. destruct (existsb (is_text (v_name v)) bs) eqn:Ei.
      * exists kept. split; [|exact IH2]. constructor; [|exact IH1]. intros (_ & _ & K). apply K, B. reflexivity.
      * exists (v :: kept). cbn [app]. split; [|constructor; auto]. constructor; [|exact IH1]. split; [exact Ew|]. split.
        -- intros e He A. assert (fuzzy_contains (v_name v) ex = true) by (apply fuzzy_spec; eauto). congruence.
        -- intros K. apply B in K. discriminate.
  - exists kept. split; [|exact IH2]. constructor; [|exact IH1]. intros (K & _). apply wanted_spec in K. congruence.
Qed.
(** Selecting succeeds when the attributes called bounds are texts. *)
Theorem C71_succeeds : forall (ds : dataset num) i exclude,
  (forall v g, In v (ds_vars ds) -> n_attr (v_info v) (lit "bounds") = Some g -> exists s, g_val g = PStr s) ->
  exists l, readXarrayFile ds i exclude true = Ok l.
Proof.
  intros ds i ex Hb. unfold readXarrayFile.
  assert (K : exists bs, bounds_vars ds = Ok bs); [|destruct K as (bs & ->); cbn [bindR]; eauto].
  unfold bounds_vars.
  assert (K : forall g, In g (flat_map (fun v => match n_attr (v_info v) (lit "bounds") with Some g => [g] | None => [] end) (ds_vars ds)) -> exists s, g_val g = PStr s).
  { intros g Hg. apply in_flat_map in Hg as (v & Hv & Hg). destruct (n_attr (v_info v) (lit "bounds")) as [g'|] eqn:En; [|destruct Hg].
    destruct Hg as [-> |[]]. eauto. }
  induction (flat_map _ (ds_vars ds)) as [|g gs IH]; [eexists; reflexivity|]. cbn [mapR].
  destruct (K g (or_introl eq_refl)) as (s & ->). destruct IH as (bs & ->); [intros; apply K; now right|]. cbn [bindR]. eauto.
Qed.
End C71.
Print Assumptions C71_selected.
Print Assumptions C71_succeeds.

(** False of the code: an id that the file does not have is no error; nothing is
    written, and no file is reported. *)
Definition ex_ds : dataset Z :=
  mkDs [var (lit "x") [(lit "bounds", gstr (lit "x_bnds"))] [xs] (data [1; 2; 3; 5]%Z); var (lit "x_bnds") [] [xs] (data [0; 1; 2; 4]%Z);
        var (lit "My Temp") [(lit "units", gstr (lit "K"))] [xs] (data [280; 281; 282; 283]%Z); var (lit "ozone") [] [xs] (data [1; 2; 3; 4]%Z);
        var (lit "s") [] [] (PNum 7%Z)]
       [(lit "title", gstr (lit "Title")); (lit "institution", gstr (lit "Inst")); (lit "source", gstr (lit "Source"))].
Definition ex_args (i : ids) (exclude : list str) (limit : option Z) : nc_args Z :=
  mkNcArgs env_Z (mkSettings RInsert false []) i exclude None dec_of_Z limit false (fun _ => None) false.
Theorem C71_refuted : exists (ds : dataset Z) name,
  ~ In name (map v_name (ds_vars ds)) /\
  convertNCToNA 10 (ex_args (IOne name) [] None) (lit "a.nc") ds (Some (lit "a.na")) false (lit " ") [] = (Ok [], []).
Proof.
  exists ex_ds, (lit "nope"). split; [|vm_compute; reflexivity]. intros K. apply mem_str_in in K. revert K. vm_compute. discriminate.
Qed.
Print Assumptions C71_refuted.
Example C71_example :
  match readXarrayFile ex_ds IAll [lit "my_temp"] true with Ok l => map v_name l = [lit "x"; lit "ozone"; lit "s"] | Err _ => False end /\
  match readXarrayFile ex_ds (IList [lit "ozone"; lit "My Temp"]) [] true with Ok l => map v_name l = [lit "My Temp"; lit "ozone"] | Err _ => False end.
Proof. vm_compute. auto. Qed.
