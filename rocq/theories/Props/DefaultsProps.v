(** C144: the settings of nappy.ini. *)
From Coq Require Import List NArith ZArith Bool Lia.
From Verif Require Import Py.Str Py.Res Py.Num Model.Dict Model.CommonUtils Model.Xarray Spec.TextSpec Model.ParseConfig Spec.ConfigSpec Model.NCWrite Model.Defaults
  Proofs.StrLemmas Proofs.ConfigLemmas Props.ConfigProps.
Import ListNotations.

(** The section main of the document gives the item this value. *)
Definition given (conf : list (str * list (str * str))) (item v : str) : Prop :=
  exists options, In (lit "main", options) conf /\ In (item, v) options.

Lemma stands_free s v : ~ In c_amp s -> stands_for s v -> v = One s.
Proof.
  intros N St. inversion St as [s' A | l L F]; subst; [reflexivity |]. exfalso. apply N.
  destruct l as [| a [| b l]]; cbn [length] in L; try lia. cbn [join]. apply in_or_app. right. apply in_or_app. left. left. reflexivity.
Qed.
Lemma stands_one_inv s o : stands_for s (One o) -> s = o.
Proof. intros St. inversion St. reflexivity. Qed.
Lemma entry_one_eqb e o : entry_eqb e (One o) = true -> e = One o.
Proof. destruct e as [s | l]; cbn [entry_eqb]; intros Q; [apply str_eqb_eq in Q as ->; reflexivity | discriminate Q]. Qed.
Lemma found_item options items o v : Forall2 entry_of options items -> NoDup (map fst options) -> ~ In c_amp o -> In (o, v) options ->
  exists e w, find (fun p => entry_eqb (fst p) (One o)) items = Some (One o, e) /\ blanks v w /\ stands_for w e.
Proof.
  intros F. induction F as [| [n x] [k e] options items (Hk & w & Hw & He) F IH]; intros ND Na I; [destruct I |]. cbn [fst snd] in *.
  inversion ND as [| ? ? Ni ND']; subst. destruct I as [Q | I].
  - injection Q as -> ->. apply stands_free in Hk as ->; [| exact Na]. exists e, w. cbn [find fst entry_eqb]. rewrite str_eqb_same. auto.
  - cbn [find fst]. destruct (entry_eqb k (One o)) eqn:E.
    + exfalso. apply entry_one_eqb in E as ->. apply stands_one_inv in Hk as ->. apply Ni. change o with (fst (o, v)). apply in_map, I.
    + apply IH; assumption.
Qed.
Lemma missing_item options items o : Forall2 entry_of options items -> ~ In o (map fst options) -> find (fun p => entry_eqb (fst p) (One o)) items = None.
Proof.
  intros F. induction F as [| [n x] [k e] options items (Hk & _) F IH]; intros Ni; [reflexivity |]. cbn [map fst] in *. cbn [find fst].
  destruct (entry_eqb k (One o)) eqn:E; [| apply IH; intros I; apply Ni; right; exact I].
  exfalso. apply entry_one_eqb in E as ->. apply stands_one_inv in Hk as ->. apply Ni. left. reflexivity.
Qed.
Lemma found_section conf d n options : Forall2 section_of conf d -> NoDup (map fst conf) -> In (n, options) conf ->
  exists items, lookup n d = Some items /\ Forall2 entry_of options items.
Proof.
  intros F. induction F as [| [m os] [m' items] conf d (Hn & Ho) F IH]; intros ND I; [destruct I |]. cbn [fst snd map] in *. subst m'.
  inversion ND as [| ? ? Ni ND']; subst. cbn [lookup]. destruct I as [Q | I].
  - injection Q as -> ->. rewrite str_eqb_same. eauto.
  - rewrite str_eqb_diff; [apply IH; assumption |]. intros ->. apply Ni. change m with (fst (m, options)). apply in_map, I.
Qed.
Lemma missing_section conf d n : Forall2 section_of conf d -> ~ In n (map fst conf) -> lookup n d = None.
Proof.
  intros F. induction F as [| [m os] [m' items] conf d (Hn & Ho) F IH]; intros Ni; [reflexivity |]. cbn [fst snd map] in *. subst m'. cbn [lookup].
  rewrite str_eqb_diff; [apply IH; intros I; apply Ni; right; exact I |]. intros ->. apply Ni. left. reflexivity.
Qed.

(** Every item of the section main has its value, with blanks for their marks
    and as a tuple where the sign & stands; an item that is not there is a
    KeyError. *)
Theorem C144_default : forall conf ls, config_text conf ls -> proper_lines ls ->
  exists c, makeConfigDict (Some (unlines ls)) = Got c /\ forall item, ~ In c_amp item ->
  (forall v, given conf item v -> exists w e, getDefault c item = Ok e /\ blanks v w /\ stands_for w e) /\
  ((forall v, ~ given conf item v) -> getDefault c item = Err EKeyError).
Proof.
  intros conf ls T P. destruct (C94_sections conf ls T P) as (c & E & F). exists c. split; [exact E |]. intros item Na.
  destruct (config_facts _ _ T) as (ND & _ & NDo). unfold getDefault. split.
  - intros v (options & I & J). destruct (found_section _ _ _ _ F ND I) as (items & -> & Fi). cbn [of_opt bindR].
    destruct (found_item _ _ _ _ Fi (NDo _ _ I) Na J) as (e & w & -> & B & St). cbn [of_opt bindR snd]. eauto.
  - intros No. destruct (in_dec (list_eq_dec N.eq_dec) (lit "main") (map fst conf)) as [I | I].
    + apply in_map_iff in I as ([n options] & Q & I). cbn [fst] in Q. subst n. destruct (found_section _ _ _ _ F ND I) as (items & -> & Fi). cbn [of_opt bindR].
      rewrite (missing_item _ _ _ Fi); [reflexivity |]. intros J. apply in_map_iff in J as ([o v] & Q & J). cbn [fst] in Q. subst o. apply (No v). exists options. auto.
    + rewrite (missing_section _ _ _ F I). reflexivity.
Qed.

Lemma blanks_fun s w : blanks s w -> forall w', blanks s w' -> w = w'.
Proof.
  intros B. induction B as [| s t B IH | c s t N B IH]; intros w' B'.
  - inversion B'. reflexivity.
  - remember (space_mark ++ s) as x eqn:X in B'. destruct B' as [| s' t' Bt | c' s' t' N' Bt].
    + discriminate X.
    + apply (app_inv_head space_mark) in X. subst s'. f_equal. apply IH, Bt.
    + exfalso. apply (N' s). exact X.
  - remember (c :: s) as x eqn:X in B'. destruct B' as [| s' t' Bt | c' s' t' N' Bt].
    + discriminate X.
    + exfalso. apply (N s'). symmetry. exact X.
    + injection X as -> ->. f_equal. apply IH, Bt.
Qed.
(** A text without marks. *)
Lemma blanks_same s : ~ In c_us s -> blanks s s.
Proof.
  induction s as [| c s IH]; intros N; [constructor |]. constructor; [| apply IH; intros I; apply N; right; exact I].
  intros r Q. apply N. assert (E : hd 0%N (c :: s) = hd 0%N (space_mark ++ r)) by (rewrite Q; reflexivity). cbn [hd] in E. left. rewrite E. reflexivity.
Qed.
Lemma blanks_back s w : blanks s w -> ~ In c_sp w -> s = w.
Proof.
  intros B. induction B as [| s t B IH | c s t N B IH]; intros Ns; [reflexivity | exfalso; apply Ns; left; reflexivity |].
  f_equal. apply IH. intros I. apply Ns. right. exact I.
Qed.
Lemma blanks_amp s w : blanks s w -> ~ In c_amp s -> ~ In c_amp w.
Proof.
  intros B. induction B as [| s t B IH | c s t N B IH]; intros Na; [exact Na | |].
  - intros [Q | I]; [discriminate Q |]. apply IH; [| exact I]. intros J. apply Na. apply in_or_app. right. exact J.
  - intros [Q | I]; [apply Na; left; exact Q |]. apply IH; [| exact I]. intros J. apply Na. right. exact J.
Qed.
Lemma blanks_nil s w : blanks s w -> (w = [] <-> s = []).
Proof. intros B. inversion B; subst; split; intros Q; try discriminate Q; reflexivity. Qed.

(** What the rules for comments are called. *)
Definition rule_name (r : rule) (s : str) : Prop :=
  match r with
  | RReplace => s = lit "replace"
  | RInsert => s = lit "insert"
  | RExtend => s = lit "extend"
  | ROther => s <> lit "replace" /\ s <> lit "insert" /\ s <> lit "extend"
  end.
Lemma rule_named s : rule_name (rule_of (One s)) s.
Proof.
  unfold rule_of. destruct (str_eqb s (lit "replace")) eqn:E1; [apply str_eqb_eq, E1 |]. destruct (str_eqb s (lit "insert")) eqn:E2; [apply str_eqb_eq, E2 |].
  destruct (str_eqb s (lit "extend")) eqn:E3; [apply str_eqb_eq, E3 |]. cbn [rule_name]. repeat split; intros ->; rewrite str_eqb_same in *; discriminate.
Qed.
(** Texts that stand for True and False in the file. *)
Definition debug_text (b : bool) : str := if b then lit "True" else lit "False".

(** With all five items in the file, without the sign &, the modules use the
    values of the file; but the column headers are left out only for an empty
    value. *)
Theorem C144_settings_partial : forall num conf ls b dl ff rl hd (overriders : list (key * pyv num)),
  config_text conf ls -> proper_lines ls ->
  given conf (lit "DEBUG") (debug_text b) -> given conf (lit "default_delimiter") dl -> given conf (lit "default_float_format") ff ->
  given conf (lit "comment_override_rule") rl -> given conf (lit "add_column_headers") hd -> ~ In c_amp dl -> ~ In c_amp ff -> ~ In c_amp rl ->
  exists c k, makeConfigDict (Some (unlines ls)) = Got c /\ import_constants c = Ok k /\ k_debug k = b /\
  (exists w, blanks dl w /\ k_delimiter k = One w) /\ (exists w, blanks ff w /\ k_format k = One w) /\
  rule_name (st_rule (settings_of k overriders)) rl /\ (st_headers (settings_of k overriders) = false <-> hd = []) /\
  st_overriders (settings_of k overriders) = overriders.
Proof.
  intros num conf ls b dl ff rl hd overriders T P G1 G2 G3 G4 G5 A2 A3 A4. destruct (C144_default conf ls T P) as (c & E & G). exists c.
  assert (Q : forall i, forallb (fun c => negb (N.eqb c c_amp)) i = true -> ~ In c_amp i).
  { intros i Q I. rewrite forallb_forall in Q. specialize (Q _ I). rewrite N.eqb_refl in Q. discriminate Q. }
  destruct (proj1 (G (lit "DEBUG") ltac:(apply Q; reflexivity)) _ G1) as (w1 & e1 & D1 & B1 & S1).
  destruct (proj1 (G (lit "default_delimiter") ltac:(apply Q; reflexivity)) _ G2) as (w2 & e2 & D2 & B2 & S2).
  destruct (proj1 (G (lit "default_float_format") ltac:(apply Q; reflexivity)) _ G3) as (w3 & e3 & D3 & B3 & S3).
  destruct (proj1 (G (lit "comment_override_rule") ltac:(apply Q; reflexivity)) _ G4) as (w4 & e4 & D4 & B4 & S4).
  destruct (proj1 (G (lit "add_column_headers") ltac:(apply Q; reflexivity)) _ G5) as (w5 & e5 & D5 & B5 & S5).
  assert (W1 : w1 = debug_text b) by (apply (blanks_fun _ _ B1), blanks_same; destruct b; intros I; vm_compute in I; repeat (destruct I as [I | I]; [discriminate I |]); destruct I).
  subst w1. apply stands_free in S1 as ->; [| destruct b; apply Q; reflexivity].
  apply stands_free in S2 as ->; [| exact (blanks_amp _ _ B2 A2)]. apply stands_free in S3 as ->; [| exact (blanks_amp _ _ B3 A3)].
  apply stands_free in S4 as ->; [| exact (blanks_amp _ _ B4 A4)].
  exists (mkConstants b (One w2) (One w3) (One w4) (truth e5)). split; [exact E |]. split.
  { unfold import_constants, getDebug. rewrite D1. cbn [bindR]. assert (X : (if str_eqb (debug_text b) (lit "True") then Ok true else if str_eqb (debug_text b) (lit "False") then Ok false else Err EUnmodelled) = Ok b) by (destruct b; reflexivity).
    rewrite X. cbn [bindR]. rewrite D2. cbn [bindR]. rewrite D3. cbn [bindR]. rewrite D4. cbn [bindR]. rewrite D5. cbn [bindR]. reflexivity. }
  cbn [k_debug k_delimiter k_format]. split; [reflexivity |]. split; [eauto |]. split; [eauto |]. unfold settings_of. cbn [st_rule st_headers st_overriders k_rule k_headers].
  split; [| split; [| reflexivity]].
  - pose proof (rule_named w4) as R.
    assert (K : forall x, ~ In c_sp x -> ~ In c_us x -> (w4 = x <-> rl = x)).
    { intros x X1 X2. split; intros ->; [apply (blanks_back _ _ B4 X1) | apply (blanks_fun _ _ B4), blanks_same, X2]. }
    assert (K1 : w4 = lit "replace" <-> rl = lit "replace") by (apply K; apply mem_chr_false; reflexivity).
    assert (K2 : w4 = lit "insert" <-> rl = lit "insert") by (apply K; apply mem_chr_false; reflexivity).
    assert (K3 : w4 = lit "extend" <-> rl = lit "extend") by (apply K; apply mem_chr_false; reflexivity).
    destruct (rule_of (One w4)); cbn [rule_name] in *; tauto.
  - rewrite <- (blanks_nil _ _ B5). inversion S5 as [s A | l L F]; subst; cbn [truth].
    + destruct w5; cbn [is_nil negb]; split; congruence.
    + destruct l as [| x [| y l]]; cbn [length] in L; try lia. cbn [is_nil negb]. split; [discriminate |]. cbn [join]. destruct x; discriminate.
Qed.
(** n marks are n blanks. *)
Theorem C144_delimiter : forall num conf ls b n ff rl hd (overriders : list (key * pyv num)),
  config_text conf ls -> proper_lines ls ->
  given conf (lit "DEBUG") (debug_text b) -> given conf (lit "default_delimiter") (concat (repeat space_mark n)) -> given conf (lit "default_float_format") ff ->
  given conf (lit "comment_override_rule") rl -> given conf (lit "add_column_headers") hd -> ~ In c_amp ff -> ~ In c_amp rl ->
  exists c k, makeConfigDict (Some (unlines ls)) = Got c /\ import_constants c = Ok k /\ k_delimiter k = One (repeat c_sp n).
Proof.
  intros num conf ls b n ff rl hd overriders T P G1 G2 G3 G4 G5 A3 A4.
  assert (B : blanks (concat (repeat space_mark n)) (repeat c_sp n)) by (clear; induction n as [| n IH]; cbn [repeat concat]; constructor; exact IH).
  assert (A2 : ~ In c_amp (concat (repeat space_mark n))).
  { clear. induction n as [| n IH]; cbn [repeat concat]; [intros [] |]. intros I. apply in_app_or in I as [I | I]; [revert I; apply mem_chr_false; reflexivity | exact (IH I)]. }
  destruct (C144_settings_partial num conf ls b _ ff rl hd overriders T P G1 G2 G3 G4 G5 A2 A3 A4) as (c & k & E & K & _ & (w & W & D) & _).
  exists c, k. split; [exact E |]. split; [exact K |]. rewrite D. f_equal. exact (blanks_fun _ _ W _ B).
Qed.
(** Without one of the five items the import of the modules fails. *)
Theorem C144_missing : forall conf ls item, config_text conf ls -> proper_lines ls ->
  In item (map lit ["DEBUG"; "default_delimiter"; "default_float_format"; "comment_override_rule"; "add_column_headers"]%pylit) -> (forall v, ~ given conf item v) ->
  exists c e, makeConfigDict (Some (unlines ls)) = Got c /\ import_constants c = Err e.
Proof.
  intros conf ls item T P I No. destruct (C144_default conf ls T P) as (c & E & G). exists c.
  assert (Na : ~ In c_amp item) by (cbn [map In] in I; destruct I as [<- | [<- | [<- | [<- | [<- | []]]]]]; apply mem_chr_false; reflexivity).
  assert (D := proj2 (G item Na) No).
  assert (X : exists e, import_constants c = Err e); [| destruct X as (e & X); exists e; auto].
  unfold import_constants. destruct (getDebug c) as [b | e] eqn:D1; cbn [bindR]; [| eauto].
  destruct (getDefault c (lit "default_delimiter")) as [x2 | e] eqn:D2; cbn [bindR]; [| eauto].
  destruct (getDefault c (lit "default_float_format")) as [x3 | e] eqn:D3; cbn [bindR]; [| eauto].
  destruct (getDefault c (lit "comment_override_rule")) as [x4 | e] eqn:D4; cbn [bindR]; [| eauto].
  destruct (getDefault c (lit "add_column_headers")) as [x5 | e] eqn:D5; cbn [bindR]; [| eauto].
  exfalso. cbn [map In] in I. destruct I as [<- | [<- | [<- | [<- | [<- | []]]]]]; try congruence. unfold getDebug in D1. rewrite D in D1. discriminate D1.
Qed.

(** ** Examples *)
(** The section main as it is distributed, and with another value for the column headers. *)
Definition main_options (headers : str) : list (str * (str * str)) :=
  [(lit "DEBUG", (lit "False", [])); (lit "default_delimiter", (lit "__space____space____space____space__", [])); (lit "default_float_format", (lit "%.10g", []));
   (lit "comment_override_rule", (lit "insert", lit " ")); (lit "add_column_headers", (headers, []))].
Definition main_section (headers : str) : list str := ([c_lbrack] ++ lit "main" ++ [c_rbrack]) :: map simple_line (main_options headers).
Definition main_values (headers : str) : list (str * str) := map (fun p => (fst p, rstrip (fst (snd p)))) (main_options headers).
Lemma main_text headers : simpleb (lit "add_column_headers", (headers, [])) = true -> config_text [(lit "main", main_values headers)] (main_section headers).
Proof.
  intros S. replace (main_section headers) with ([] ++ concat [main_section headers]) by (cbn [app concat]; apply app_nil_r). apply config_lines; [constructor | | repeat constructor; intros []].
  constructor; [| constructor]. apply (simple_section (lit "main") (main_options headers)); [discriminate | intros Q; vm_compute in Q; discriminate Q | |].
  - unfold main_options. cbn [forallb]. rewrite S. vm_compute. reflexivity.
  - apply nodup_check. vm_compute. reflexivity.
Qed.
Lemma lines_check ls : forallb (fun l => negb (mem_chr c_nl l) && negb (mem_chr c_cr l)) ls = true -> proper_lines ls.
Proof.
  intros Q l I. rewrite forallb_forall in Q. specialize (Q _ I). apply andb_prop in Q as [Q1 Q2]. split; apply mem_chr_false; [destruct (mem_chr c_nl l) | destruct (mem_chr c_cr l)]; auto; discriminate.
Qed.
(** The distributed file: four blanks, new comments before the old ones, column
    headers. *)
Example C144_distributed : exists c, makeConfigDict (Some nappy_ini) = Got c /\
  import_constants c = Ok (mkConstants false (One (lit "    ")) (One (lit "%.10g")) (One (lit "insert")) true) /\ getDefault c (lit "version") = Err EKeyError.
Proof. eexists. split; [vm_compute; reflexivity |]. split; vm_compute; reflexivity. Qed.
Example C144_conditions : config_text [(lit "main", main_values (lit "True"))] (main_section (lit "True")) /\ proper_lines (main_section (lit "True")) /\
  given [(lit "main", main_values (lit "True"))] (lit "default_delimiter") (concat (repeat space_mark 4)) /\ given [(lit "main", main_values (lit "True"))] (lit "DEBUG") (debug_text false) /\
  given [(lit "main", main_values (lit "True"))] (lit "comment_override_rule") (lit "insert") /\ (forall v, ~ given [(lit "main", main_values (lit "True"))] (lit "version") v).
Proof.
  assert (G : forall i v, In (i, v) (main_values (lit "True")) -> given [(lit "main", main_values (lit "True"))] i v) by (intros i v I; exists (main_values (lit "True")); split; [left; reflexivity | exact I]).
  split; [apply main_text; vm_compute; reflexivity |]. split; [apply lines_check; vm_compute; reflexivity |].
  split; [apply G; right; left; vm_compute; reflexivity |]. split; [apply G; left; vm_compute; reflexivity |]. split; [apply G; right; right; right; left; vm_compute; reflexivity |].
  intros v (o & [Q | []] & I). injection Q as <-. assert (J := in_map fst _ _ I). cbn [fst] in J. vm_compute in J. repeat (destruct J as [J | J]; [discriminate J |]). destruct J.
Qed.

(** A dictionary with one variable and no normal comments. *)
Definition one_variable : na Z := fun k => match k with
  | kFFI => Some (PInt 1001) | kNAUXV => Some (PInt 0) | kXNAME => Some (PList [PStr (lit "t")]) | kVNAME => Some (PList [PStr (lit "v")]) | kNCOM => Some (PList []) | _ => None end.
(** "add_column_headers = False" in nappy.ini: the column headers are added all
    the same. *)
Theorem C144_refuted : exists conf ls c k d', config_text conf ls /\ proper_lines ls /\ given conf (lit "add_column_headers") (lit "False") /\
  makeConfigDict (Some (unlines ls)) = Got c /\ import_constants c = Ok k /\
  prepare (settings_of k []) one_variable = Ok d' /\ one_variable kNCOM = Some (PList []) /\ d' kNCOM = Some (PList [PStr (lit "t,v")]).
Proof.
  exists [(lit "main", main_values (lit "False"))], (main_section (lit "False")). do 3 eexists. split; [apply main_text; vm_compute; reflexivity |].
  split; [apply lines_check; vm_compute; reflexivity |]. split; [exists (main_values (lit "False")); split; [left; reflexivity | do 4 right; left; vm_compute; reflexivity] |].
  split; [vm_compute; reflexivity |]. split; [vm_compute; reflexivity |]. split; [vm_compute; reflexivity |]. split; vm_compute; reflexivity.
Qed.
(** Only an empty value leaves them out. *)
Example C144_empty : exists c k, makeConfigDict (Some (unlines (main_section []))) = Got c /\ import_constants c = Ok k /\ k_headers k = false /\
  exists d', prepare (settings_of k []) one_variable = Ok d' /\ d' kNCOM = Some (PList []).
Proof. do 2 eexists. split; [vm_compute; reflexivity |]. split; [vm_compute; reflexivity |]. split; [reflexivity |]. eexists. split; vm_compute; reflexivity. Qed.

Print Assumptions C144_default.
Print Assumptions C144_settings_partial.
Print Assumptions C144_delimiter.
Print Assumptions C144_missing.
Print Assumptions C144_refuted.
