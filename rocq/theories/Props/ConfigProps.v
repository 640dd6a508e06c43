(** C94 to C97: configuration files. *)
From Coq Require Import List NArith ZArith Bool Lia.
From Verif Require Import Py.Str Py.Res Py.Num Py.Arith Model.Dict Model.CommonUtils Model.NAWrite Model.NARead Model.NCWrite Model.Xarray Model.Collector
  Model.ToXarray Model.Utils Model.Api Model.Getopt Model.CommandLine Model.Programs Spec.ZNum Spec.TextSpec Spec.AnnotSpec Spec.CommandLineSpec Spec.ProgramSpec
  Model.ParseConfig Model.ConfigCache Spec.ConfigSpec Proofs.StrLemmas Proofs.CollectorLemmas Proofs.ReadFrame Proofs.ConfigLemmas Props.AnnotProps Props.CollectorProps
  Props.ToXarrayProps Props.NCWriteProps Props.UtilProps Props.ApiProps Props.ApiMore Props.CommandLine Props.Programs.
Import ListNotations.

(** ** C94 *)
Lemma starts_split p : forall s, starts_with p s = true -> s = p ++ skipn (length p) s.
Proof.
  induction p as [|x p IH]; intros [|y s] Q; cbn in Q |- *; try discriminate Q; try reflexivity. apply andb_prop in Q as [Q1 Q2]. apply N.eqb_eq in Q1 as ->. f_equal. apply IH, Q2.
Qed.
Lemma starts_app p s : starts_with p (p ++ s) = true.
Proof. induction p as [|x p IH]; [reflexivity|]. cbn. now rewrite N.eqb_refl. Qed.
Lemma replace_mark r : replace_aux (lit "__space__") (lit " ") (space_mark ++ r) 0 = c_sp :: replace_aux (lit "__space__") (lit " ") r 0.
Proof. reflexivity. Qed.
Lemma replace_other c t : starts_with (lit "__space__") (c :: t) = false ->
  replace_aux (lit "__space__") (lit " ") (c :: t) 0 = c :: replace_aux (lit "__space__") (lit " ") t 0.
Proof. intros Q. cbn [replace_aux]. now rewrite Q. Qed.
Lemma with_spaces_blanks s : blanks s (with_spaces s).
Proof.
  unfold with_spaces, replace_str. remember (length s) as n eqn:E. assert (L : (length s <= n)%nat) by lia. clear E. revert s L.
  induction n as [|n IH]; intros s L; [destruct s; [constructor|cbn in L; lia]|].
  destruct s as [|c t]; [constructor|].
  destruct (starts_with (lit "__space__") (c :: t)) eqn:Q.
  - apply starts_split in Q. rewrite Q. change (lit "__space__" ++ ?x) with (space_mark ++ x). rewrite replace_mark. constructor. apply IH.
    apply (f_equal (@length _)) in Q. rewrite app_length in Q. cbn [length] in L, Q. change (length (lit "__space__")) with 9%nat in *. lia.
  - rewrite replace_other by exact Q. constructor; [|apply IH; cbn in L; lia]. intros r Er. rewrite Er in Q. unfold space_mark in Q. rewrite starts_app in Q. discriminate Q.
Qed.
Lemma with_tuples_stands s : stands_for s (with_tuples s).
Proof.
  unfold with_tuples. destruct (mem_chr c_amp s) eqn:M; [|constructor; now apply mem_chr_false].
  replace s with (join [c_amp] (split_chr c_amp s)) at 1 by apply join_split_chr. constructor.
  - rewrite split_chr_length. apply mem_chr_In in M. clear - M. induction s as [|c s IH]; [destruct M|]. cbn [count_chr]. destruct (N.eqb_spec c c_amp); [lia|]. destruct M as [->|M]; [congruence|]. apply IH in M. lia.
  - clear. unfold split_chr. assert (G : ~ In c_amp (fst (split_chr_aux c_amp s)) /\ Forall (fun x => ~ In c_amp x) (snd (split_chr_aux c_amp s))).
    { induction s as [|c s (A & B)]; [split; [intros []|constructor]|]. cbn [split_chr_aux]. destruct (split_chr_aux c_amp s) as [w ws]. cbn [fst snd] in *.
      destruct (N.eqb_spec c c_amp); cbn [fst snd]; split; auto; intros [Q|Q]; contradiction. }
    destruct (split_chr_aux c_amp s) as [w ws]. destruct G. constructor; assumption.
Qed.
Lemma with_tuples_inj s t : entry_eqb (with_tuples s) (with_tuples t) = true -> s = t.
Proof.
  unfold with_tuples. intros E.
  assert (G : forall l m, (length l =? length m)%nat && forallb (fun p => str_eqb (fst p) (snd p)) (combine l m) = true -> l = m).
  { clear. induction l as [|a l IH]; intros [|b m]; cbn; intros Q; try discriminate Q; [reflexivity|]. apply andb_prop in Q as [Q1 Q2]. apply andb_prop in Q2 as [Q2 Q3].
    apply str_eqb_eq in Q2 as ->. f_equal. apply IH. now rewrite Q1, Q3. }
  destruct (mem_chr c_amp s), (mem_chr c_amp t); cbn [entry_eqb] in E; try discriminate E.
  - apply G in E. rewrite <- (join_split_chr c_amp s), E. apply join_split_chr.
  - now apply str_eqb_eq.
Qed.
Lemma eset_new k v l : (forall q, In q l -> entry_eqb k (fst q) = false) -> eset k v l = l ++ [(k, v)].
Proof.
  induction l as [|[k' v'] l IH]; intros F; [reflexivity|]. cbn [eset]. assert (Q := F (k', v') (or_introl eq_refl)). cbn [fst] in Q. rewrite Q. cbn [app]. f_equal. apply IH. intros q I. apply F. right. exact I.
Qed.
Lemma entries_made items : NoDup (map fst items) -> exists l, fold_left (fun d q => eset (with_tuples (fst q)) (with_tuples (with_spaces (snd q))) d) items [] = l /\ Forall2 entry_of items l.
Proof.
  intros ND. eexists. split; [reflexivity|].
  cut (forall prev, (forall x, In x (map fst prev) -> ~ In x (map fst items)) ->
    fold_left (fun d q => eset (with_tuples (fst q)) (with_tuples (with_spaces (snd q))) d) items (map (fun q => (with_tuples (fst q), with_tuples (with_spaces (snd q)))) prev) =
    map (fun q => (with_tuples (fst q), with_tuples (with_spaces (snd q)))) (prev ++ items)).
  { intros H. specialize (H [] (fun x (f : In x []) => match f with end)). cbn [map app] in H. rewrite H. clear. induction items as [|[o v] items IH]; cbn [map]; constructor; [|exact IH].
    split; [apply with_tuples_stands|]. exists (with_spaces v). split; [apply with_spaces_blanks|apply with_tuples_stands]. }
  induction items as [|[o v] items IH]; intros prev Dj; [now rewrite app_nil_r|]. cbn [fold_left fst snd]. cbn [map fst] in ND. inversion ND as [|? ? Ni ND']; subst.
  rewrite eset_new.
  - replace (prev ++ (o, v) :: items) with ((prev ++ [(o, v)]) ++ items) by (rewrite <- app_assoc; reflexivity). rewrite <- IH.
    + rewrite map_app. reflexivity.
    + exact ND'.
    + intros x I. rewrite map_app in I. apply in_app_or in I as [I|[<-|[]]]; [intros K; apply (Dj _ I); right; exact K|exact Ni].
  - intros q I. apply in_map_iff in I as (p & <- & I). cbn [fst]. destruct (entry_eqb _ _) eqn:Q; [|reflexivity]. apply with_tuples_inj in Q. exfalso.
    apply (Dj (fst p)); [apply in_map, I|]. left. exact Q.
Qed.
Lemma lookup_in {A} (l : list (str * A)) k v : NoDup (map fst l) -> In (k, v) l -> lookup k l = Some v.
Proof.
  induction l as [|[a b] l IH]; intros ND I; [destruct I|]. cbn [map fst] in ND. inversion ND; subst. cbn [lookup]. destruct I as [Q|I].
  - injection Q as -> ->. now rewrite str_eqb_same.
  - rewrite str_eqb_diff; [auto|]. intros ->. apply H1. change a with (fst (a, v)). apply in_map, I.
Qed.
Lemma config_facts conf ls : config_text conf ls -> NoDup (map fst conf) /\ ~ In default_section (map fst conf) /\ forall n options, In (n, options) conf -> NoDup (map fst options).
Proof.
  intros T. inversion T as [c rs ss R F ND]; subst. split; [exact ND|]. clear T ND R. induction F as [|p s conf ss S F (IH1 & IH2)]; [split; [intros []|intros ? ? []]|].
  inversion S as [n b rs' op os Nz Nd B R' Fo ND]; subst. split.
  - cbn [map fst]. intros [Q|Q]; [congruence|contradiction].
  - intros n' op' [Q|I]; [injection Q as <- <-; exact ND|eapply IH2, I].
Qed.
Lemma items_found conf ls n options : config_text conf ls -> In (n, options) conf -> conf_items conf n = Got options.
Proof.
  intros T I. destruct (config_facts _ _ T) as (ND & Nd & _). unfold conf_items. rewrite str_eqb_diff.
  - rewrite (lookup_in _ _ _ ND I). unfold conf_defaults. rewrite ConfigLemmas.lookup_none by exact Nd. cbn [filter]. now rewrite app_nil_r.
  - intros ->. apply Nd. change default_section with (fst (default_section, options)). apply in_map, I.
Qed.
(** A file with sections and options: the dictionary has these sections and
    options in their order, with blanks for their marks and tuples where the sign
    & stands. *)
Theorem C94_sections : forall conf ls, config_text conf ls -> proper_lines ls ->
  exists d, makeConfigDict (Some (unlines ls)) = Got d /\ Forall2 section_of conf d.
Proof.
  intros conf ls T P. unfold makeConfigDict, read_conf. rewrite (config_read _ _ T P). cbn [bindI].
  assert (Sec : conf_sections conf = map fst conf).
  { destruct (config_facts _ _ T) as (_ & Nd & _). unfold conf_sections. clear - Nd. induction conf as [|[n o] conf IH]; [reflexivity|]. cbn [map fst filter] in Nd |- *.
    rewrite str_eqb_diff by (intros ->; apply Nd; left; reflexivity). cbn [negb]. f_equal. apply IH. intros Q. apply Nd. right. exact Q. }
  rewrite Sec. destruct (config_facts _ _ T) as (_ & _ & NDo).
  assert (It : forall n options, In (n, options) conf -> conf_items conf n = Got options) by (intros; eapply items_found; eauto).
  cut (forall l, (forall p, In p l -> In p conf) -> exists d, fold_right (fun section rest => bindI (conf_items conf section) (fun items => bindI rest (fun rest =>
      Got ((section, fold_left (fun d q => eset (with_tuples (fst q)) (with_tuples (with_spaces (snd q))) d) items []) :: rest)))) (Got []) (map fst l) = Got d /\ Forall2 section_of l d).
  { intros H. apply (H conf). auto. }
  induction l as [|[n options] l IH]; intros Sub; [exists []; split; [reflexivity|constructor]|]. cbn [map fst fold_right].
  rewrite (It n options) by (apply Sub; left; reflexivity). destruct IH as (d & -> & F); [intros p I; apply Sub; right; exact I|]. cbn [bindI].
  destruct (entries_made options (NDo n options (Sub _ (or_introl eq_refl)))) as (m & -> & Fm).
  eexists. split; [reflexivity|]. constructor; [split; [reflexivity|exact Fm]|exact F].
Qed.
(** The distributed file. *)
Example C94_example : exists d, makeConfigDict (Some nappy_ini) = Got d /\
  map fst d = map lit ["main"; "header_partitions"; "na_to_nc_map"; "nc_to_na_map"]%pylit /\
  option_map (firstn 5) (lookup (lit "main") d) =
    Some [(One (lit "DEBUG"), One (lit "False")); (One (lit "default_delimiter"), One (lit "    ")); (One (lit "default_float_format"), One (lit "%.10g"));
          (One (lit "comment_override_rule"), One (lit "insert")); (One (lit "add_column_headers"), One (lit "True"))] /\
  option_map (skipn 7) (lookup (lit "na_to_nc_map") d) =
    Some [(One (lit "RDATE"), One (lit "history")); (One (lit "DATE"), One (lit "first_valid_date_of_data")); (Tuple [lit "SCOM"; lit "NCOM"], One (lit "comment"))].
Proof. eexists. split; [vm_compute; reflexivity|]. vm_compute. repeat split. Qed.

Fixpoint distinct (l : list str) : bool := match l with [] => true | x :: t => negb (mem_str x t) && distinct t end.
Lemma nodup_check l : distinct l = true -> NoDup l.
Proof.
  induction l as [|x l IH]; intros Q; constructor; cbn [distinct] in Q; apply andb_prop in Q as [Q1 Q2]; [|auto]. intros I. apply mem_str_in in I. now rewrite I in Q1.
Qed.
(** Documents of simple lines. *)
Definition nameb (n : str) : bool :=
  str_eqb (strip n) n && negb (mem_chr c_eq n) && negb (mem_chr c_colon n) &&
  match n with [] => false | c :: _ => negb (N.eqb c c_lbrack) && negb (N.eqb c c_hash) && negb (N.eqb c c_semi) end.
Lemma nameb_name n : nameb n = true -> option_name n.
Proof.
  unfold nameb. intros Q. apply andb_prop in Q as [Q Q4]. apply andb_prop in Q as [Q Q3]. apply andb_prop in Q as [Q1 Q2].
  split; [apply str_eqb_eq, Q1|]. split; [apply mem_chr_false; now destruct (mem_chr c_eq n)|]. split; [apply mem_chr_false; now destruct (mem_chr c_colon n)|].
  destruct n as [|c t]; [discriminate Q4|]. exists c, t. split; [reflexivity|].
  apply andb_prop in Q4 as [Q4 Q5]. apply andb_prop in Q4 as [Q4 Q6]. repeat split; intros ->; rewrite N.eqb_refl in *; discriminate.
Qed.
Definition simple_line (p : str * (str * str)) : str := fst p ++ lit " = " ++ fst (snd p) ++ snd (snd p).
Definition simpleb (p : str * (str * str)) : bool := nameb (fst p) && str_eqb (strip (fst (snd p))) (fst (snd p)) && forallb is_space (snd (snd p)).
Lemma simple_option p : simpleb p = true -> option_text (fst p, rstrip (fst (snd p))) [simple_line p].
Proof.
  destruct p as [n [w b]]. unfold simpleb, simple_line. cbn [fst snd]. intros Q. apply andb_prop in Q as [Q Q3]. apply andb_prop in Q as [Q1 Q2].
  apply (option_lines n (lit " ") c_eq (lit " ") w b [] []); [apply nameb_name, Q1|repeat constructor|left; reflexivity|repeat constructor|apply str_eqb_eq, Q2| |constructor].
  apply Forall_forall. apply forallb_forall. exact Q3.
Qed.
Lemma simple_section n l : n <> [] -> n <> default_section -> forallb simpleb l = true -> NoDup (map fst l) ->
  section_text (n, map (fun p => (fst p, rstrip (fst (snd p)))) l) (([c_lbrack] ++ n ++ [c_rbrack]) :: map simple_line l).
Proof.
  intros N1 N2 F ND. assert (T := section_lines n [] [] (map (fun p => (fst p, rstrip (fst (snd p)))) l) (map (fun p => [simple_line p]) l)). cbn [app] in T.
  assert (Ec : forall l : list (str * (str * str)), concat (map (fun p => [simple_line p]) l) = map simple_line l) by (clear; induction l as [|x l IH]; [reflexivity|cbn [map concat app]; now f_equal]).
  rewrite Ec in T. apply T; auto.
  - constructor.
  - clear - F. induction l as [|p l IH]; cbn [map forallb] in *; constructor; apply andb_prop in F as [F1 F2]; [apply simple_option, F1|apply IH, F2].
  - rewrite map_map. exact ND.
Qed.
(** A document with remarks, a value on several lines, marks and tuples. *)
Definition small_document : list str := map lit
  ["# remark"; "[main]"; ""; "; another"; "a&b : x__space__y&z "; "c="; " one"; "# in between"; ""; "  two"; "[empty]  "]%pylit.
Example C94_conditions : config_text [(lit "main", [(lit "a&b", lit "x__space__y&z"); (lit "c", nl ++ lit "one" ++ nl ++ nl ++ lit "two")]); (lit "empty", [])] small_document /\
  proper_lines small_document /\
  makeConfigDict (Some (unlines small_document)) =
    Got [(lit "main", [(Tuple [lit "a"; lit "b"], Tuple [lit "x y"; lit "z"]); (One (lit "c"), One (nl ++ lit "one" ++ nl ++ nl ++ lit "two"))]); (lit "empty", [])].
Proof.
  assert (NC : forall w c t, w = c :: t -> is_space c = false -> c <> c_hash -> c <> c_semi -> ~ comment_line w).
  { intros w c t -> S N1 N2 (b & c' & t' & E & B & Q). destruct b as [|x b]; cbn [app] in E; injection E as -> _; [intuition congruence|]. inversion B; congruence. }
  split; [|split].
  - unfold small_document. set (L := map lit _).
    replace L with ([lit "# remark"] ++ concat [
      ([c_lbrack] ++ lit "main" ++ [c_rbrack] ++ []) :: [[]; lit "; another"] ++ concat [
          [lit "a&b" ++ lit " " ++ [c_colon] ++ lit " " ++ lit "x__space__y&z" ++ lit " "];
          [lit "c" ++ [] ++ [c_eq] ++ [] ++ [] ++ []; lit " " ++ lit "one" ++ []; lit "# in between"; []; lit "  " ++ lit "two" ++ []]];
      ([c_lbrack] ++ lit "empty" ++ [c_rbrack] ++ lit "  ") :: [] ++ concat []]) by reflexivity.
    apply config_lines.
    + constructor; [|constructor]. left. exists [], c_hash, (lit " remark"). split; [reflexivity|]. split; [constructor|auto].
    + constructor; [|constructor; [|constructor]].
      * apply section_lines; [discriminate|intros Q; vm_compute in Q; discriminate Q|constructor| | |].
        -- constructor; [right; constructor|]. constructor; [|constructor]. left. exists [], c_semi, (lit " another"). split; [reflexivity|]. split; [constructor|auto].
        -- constructor; [|constructor; [|constructor]].
           ++ apply (option_lines (lit "a&b") (lit " ") c_colon (lit " ") (lit "x__space__y&z") (lit " ") [] []);
                [apply nameb_name; reflexivity|repeat constructor|auto|repeat constructor|reflexivity|repeat constructor|constructor].
           ++ apply (option_lines (lit "c") [] c_eq [] [] [] [lit " " ++ lit "one" ++ []; lit "# in between"; []; lit "  " ++ lit "two" ++ []] [lit "one"; []; lit "two"]);
                [apply nameb_name; reflexivity|constructor|auto|constructor|reflexivity|constructor|].
              apply more_text; [discriminate|repeat constructor|discriminate|reflexivity|eapply NC; [reflexivity|reflexivity|discriminate|discriminate]|constructor|].
              apply more_comment; [exists [], c_hash, (lit " in between"); split; [reflexivity|]; split; [constructor|auto]|].
              apply more_empty; [constructor|].
              apply more_text; [discriminate|repeat constructor|discriminate|reflexivity|eapply NC; [reflexivity|reflexivity|discriminate|discriminate]|constructor|constructor].
        -- apply nodup_check. reflexivity.
      * apply section_lines; [discriminate|intros Q; vm_compute in Q; discriminate Q|repeat constructor|constructor|constructor|constructor].
    + apply nodup_check. reflexivity.
  - assert (Q : forallb (fun l => negb (mem_chr c_nl l) && negb (mem_chr c_cr l)) small_document = true) by (vm_compute; reflexivity).
    intros l I. rewrite forallb_forall in Q. specialize (Q _ I). apply andb_prop in Q as [Q1 Q2].
    split; apply mem_chr_false; [now destruct (mem_chr c_nl l)|now destruct (mem_chr c_cr l)].
  - vm_compute. reflexivity.
Qed.

(** ** C95 *)
Lemma create_view c : forall w, let (d, w') := create w c in
  view w' d = c /\ (forall p, In p d -> snd p < length (w_objects w'))%nat /\ (exists m, w_objects w' = w_objects w ++ m) /\ w_config w' = w_config w /\ w_copies w' = w_copies w.
Proof.
  induction c as [|[n items] c IH]; intros w; cbn [create].
  - split; [reflexivity|]. split; [intros ? []|]. split; [exists []; now rewrite app_nil_r|auto].
  - specialize (IH (mkWorld (w_objects w ++ [items]) (w_config w) (w_copies w))). destruct (create _ c) as [d w']. cbn [w_objects w_config w_copies] in IH.
    destruct IH as (V & B & (m & Em) & E1 & E2). split; [|split; [|split; [|auto]]].
    + unfold view. cbn [map fst snd]. f_equal; [|exact V]. f_equal. rewrite Em, <- app_assoc, app_nth2, Nat.sub_diag by lia. reflexivity.
    + intros p [<-|I]; [|apply B, I]. cbn [snd]. rewrite Em, !app_length. cbn [length]. lia.
    + exists (items :: m). rewrite Em, <- app_assoc. reflexivity.
Qed.
Definition kept_config (c : config) (w : world) : Prop :=
  exists d, w_config w = Some d /\ view w d = c /\ forall p, In p d -> (snd p < length (w_objects w))%nat.
Lemma view_more objs m cf1 cf2 cp1 cp2 d : (forall p, In p d -> (snd p < length objs)%nat) -> view (mkWorld (objs ++ m) cf1 cp1) d = view (mkWorld objs cf2 cp2) d.
Proof. intros B. unfold view. apply map_ext_in. intros p I. cbn [w_objects]. now rewrite app_nth1 by auto. Qed.
Lemma call_kept files c w cf : kept_config c w -> exists w', getConfigDict files cf w = (Got c, w') /\ kept_config c w'.
Proof.
  intros (d & E & V & B). unfold getConfigDict. rewrite E, V. eexists. split; [reflexivity|]. exists d. cbn [w_config w_objects]. split; [reflexivity|]. split; [exact V|exact B].
Qed.
Lemma act_kept files c w a : (forall k s i v, a <> SetItem k s i v) -> (forall cf, a <> Call cf) -> kept_config c w -> exists w', act files a w = ([], w') /\ kept_config c w'.
Proof.
  intros N N' K. destruct a as [cf|k s items|k s|k s i v]; [now destruct (N' cf)| | |now destruct (N k s i v)]; cbn [act]; (destruct (nth_error (w_copies w) k) as [d0|]; [|eauto]);
    eexists; (split; [reflexivity|]); destruct K as (d & E & V & B); exists d; cbn [w_config w_objects]; (split; [exact E|]).
  - split; [|intros p I; specialize (B _ I); rewrite app_length; lia]. rewrite <- V. destruct w as [ob co cp]. cbn [w_objects] in *. apply view_more, B.
  - split; [exact V|exact B].
Qed.
Lemma history_kept files c l : forall w, no_item_set l -> kept_config c w -> history files l w = repeat (Got c) (length (calls l)).
Proof.
  induction l as [|a l IH]; intros w N K; [reflexivity|]. cbn [history].
  assert (N' : no_item_set l) by (intros k s i v I; apply (N k s i v); right; exact I).
  destruct a as [cf|k s items|k s|k s i v].
  - cbn [act]. destruct (call_kept files c w cf K) as (w' & -> & K'). rewrite (IH _ N' K'). reflexivity.
  - destruct (act_kept files c w (SetSection k s items)) as (w' & -> & K'); try (intros; discriminate); [exact K|]. rewrite (IH _ N' K'). reflexivity.
  - destruct (act_kept files c w (DelSection k s)) as (w' & -> & K'); try (intros; discriminate); [exact K|]. rewrite (IH _ N' K'). reflexivity.
  - destruct (N k s i v). left. reflexivity.
Qed.
(** Calls that fail leave nothing behind.  As soon as a call has succeeded all
    later calls return what this call returned, for whatever file they ask and
    whatever callers do to the dictionaries that they have: sections replaced,
    added or deleted.  Missing from the full claim: the file asked for, and
    changes within sections (next theorems). *)
Theorem C95_partial : forall files l1 cf c l2,
  no_item_set l2 -> (forall a, In a l1 -> exists cf', a = Call cf') ->
  (forall cf', In cf' (calls l1) -> exists e, makeConfigDict (files cf') = Bad e) -> makeConfigDict (files cf) = Got c ->
  history files (l1 ++ Call cf :: l2) nothing_read =
    map (fun cf' => makeConfigDict (files cf')) (calls l1) ++ Got c :: repeat (Got c) (length (calls l2)).
Proof.
  intros files l1 cf c l2 N Cl Bd E. induction l1 as [|a l1 IH].
  - cbn [app calls flat_map map history act]. unfold getConfigDict. cbn [w_config nothing_read]. rewrite E.
    assert (V := create_view c nothing_read). destruct (create nothing_read c) as [d w']. destruct V as (V & B & _ & _ & _). rewrite V. cbn [app]. f_equal.
    apply history_kept; [exact N|]. exists d. cbn [w_config w_objects]. split; [reflexivity|]. split; [exact V|exact B].
  - destruct (Cl a (or_introl eq_refl)) as (cf' & ->). destruct (Bd cf' (or_introl eq_refl)) as (x & Ex).
    cbn [app history act calls flat_map map]. unfold getConfigDict. cbn [w_config nothing_read]. rewrite Ex. cbn [app]. f_equal.
    apply IH; [intros b I; apply Cl; right; exact I|intros b I; apply Bd; right; exact I].
Qed.
Definition two_files (n : str) : option str :=
  if str_eqb n (lit "nappy.ini") then Some nappy_ini else if str_eqb n (lit "my.ini") then Some (unlines (map lit ["[main]"; "DEBUG = True"]%pylit))
  else if str_eqb n (lit "bad.ini") then Some (lit "DEBUG = True") else None.
Definition quiet_actions : list action := [SetSection 0 (lit "main") []; Call (lit "nappy.ini"); DelSection 1 (lit "main"); Call (lit "my.ini")].
Example C95_example : no_item_set quiet_actions /\ (exists c, makeConfigDict (two_files (lit "nappy.ini")) = Got c /\ c <> []) /\
  (exists e, makeConfigDict (two_files (lit "bad.ini")) = Bad e).
Proof.
  split; [intros k s i v I; cbn in I; repeat destruct I as [I|I]; try discriminate I; contradiction|]. split; [eexists; split; [vm_compute; reflexivity|discriminate]|]. eexists. vm_compute. reflexivity.
Qed.
(** The second of two calls, for another file, returns what the first file says. *)
Theorem C95_refuted : exists files a b ca cb, makeConfigDict (files a) = Got ca /\ makeConfigDict (files b) = Got cb /\ ca <> cb /\
  history files [Call a; Call b] nothing_read = [Got ca; Got ca].
Proof.
  exists two_files, (lit "nappy.ini"), (lit "my.ini"). eexists. eexists. split; [vm_compute; reflexivity|]. split; [vm_compute; reflexivity|]. split; [discriminate|]. vm_compute. reflexivity.
Qed.
(** A caller that changes an item of a section in its copy changes it for all
    later callers. *)
Theorem C95_shared_refuted : exists files a c c', makeConfigDict (files a) = Got c /\ c <> c' /\
  history files [Call a; SetItem 0 (lit "main") (One (lit "default_delimiter")) (One (lit ",")); Call a] nothing_read = [Got c; Got c'].
Proof.
  exists two_files, (lit "nappy.ini"). eexists. eexists. split; [vm_compute; reflexivity|]. split; [|vm_compute; reflexivity]. discriminate.
Qed.
(** A file that does not exist counts as an empty one, and this is what all later
    calls return. *)
Theorem C95_missing_refuted : exists files a b c, files a = None /\ makeConfigDict (files b) = Got c /\ c <> [] /\
  history files [Call a; Call b] nothing_read = [Got []; Got []].
Proof.
  exists two_files, (lit "none.ini"), (lit "nappy.ini"). eexists. split; [reflexivity|]. split; [vm_compute; reflexivity|]. split; [discriminate|]. vm_compute. reflexivity.
Qed.

(** ** C96 *)
Section C96.
Context {num : Type} `{NumOps num} `{ArithOps num}.
Definition name_of (k : key) : str :=
  match k with
  | kDATE => lit "DATE" | kRDATE => lit "RDATE" | kANAME => lit "ANAME" | kVNAME => lit "VNAME"
  | kMNAME => lit "MNAME" | kONAME => lit "ONAME" | kORG => lit "ORG" | _ => lit "SNAME"
  end.
Lemma header_item n k : In (n, k) header_items -> n = name_of k /\ In k (map snd header_items) /\ lookup n override_keys = Some k.
Proof.
  intros I. split; [|split].
  - unfold header_items in I. repeat destruct I as [I|I]; try (assert (Q := f_equal fst I); assert (Q' := f_equal snd I); cbn [fst snd] in Q, Q'; subst; reflexivity). destruct I.
  - apply in_map_iff. exists (n, k). auto.
  - unfold header_items in I. repeat destruct I as [I|I]; try (assert (Q := f_equal fst I); assert (Q' := f_equal snd I); cbn [fst snd] in Q, Q'; subst; reflexivity). destruct I.
Qed.
Lemma lookup_found {A} n (l : list (str * A)) x : lookup n l = Some x -> In (n, x) l.
Proof.
  induction l as [|[a b] l IH]; [discriminate|]. cbn [lookup]. destruct (str_eqb n a) eqn:E; [|right; auto]. apply str_eqb_eq in E as ->. intros [= ->]. left. reflexivity.
Qed.
Lemma override_key n k : lookup n override_keys = Some k -> In (n, k) header_items \/ k = kSCOM \/ k = kNCOM.
Proof.
  intros Q. apply lookup_found in Q. unfold override_keys in Q. unfold header_items.
  repeat destruct Q as [Q|Q]; try (assert (Q1 := f_equal fst Q); assert (Q2 := f_equal snd Q); cbn [fst snd] in Q1, Q2; subst;
    first [right; left; reflexivity|right; right; reflexivity|left; repeat first [left; reflexivity|right]]). destruct Q.
Qed.
Lemma ints_said ws : forall l, mapR (@to_int num) (map PStr ws) = Ok l -> exists zs, l = map PInt zs /\ Forall2 (fun w z => int_of_str w = Some z) ws zs.
Proof.
  induction ws as [|w ws IH]; intros l Q; cbn [map mapR] in Q; [injection Q as <-; exists []; split; [reflexivity|constructor]|].
  bindE Q x Qx. bindE Q y Qy. injection Q as <-. unfold to_int in Qx. destruct (int_of_str w) as [z|] eqn:Ez; [|discriminate Qx]. injection Qx as <-.
  destruct (IH _ Qy) as (zs & -> & F). exists (z :: zs). split; [reflexivity|]. constructor; assumption.
Qed.
Lemma override_said r (d d' : na num) n k t : lookup n override_keys = Some k -> override r d (k, PStr t) = Ok d' ->
  (In (n, k) header_items /\ exists x, says k t x /\ d' = upd d k x) \/
  ~ In k (map snd header_items) /\ forall k', ~ In k' [kSCOM; kNCOM; kNSCOML; kNNCOML] -> d' k' = d k'.
Proof.
  intros L Q. apply override_key in L as [L|L].
  - left. split; [exact L|]. apply header_item in L as (_ & L & _). unfold override in Q.
    cbn [map snd header_items] in L. repeat destruct L as [<-|L]; try destruct L; cbn [key_in existsb key_beq permitted orb negb split_words] in Q;
      try (cbn [bindR] in Q; injection Q as <-; eexists; split; [|reflexivity]; first [apply says_text; cbn; tauto|apply says_names; cbn; tauto]).
    all: cbn [bindR] in Q; destruct (mapR _ _) as [l|] eqn:M; [|discriminate Q]; cbn [bindR] in Q; injection Q as <-; apply ints_said in M as (zs & -> & F);
      eexists; (split; [|reflexivity]); apply says_date; [cbn; tauto|exact F].
  - right. split; [destruct L as [-> | ->]; cbn; intuition discriminate|]. intros k' N. unfold override in Q.
    replace (negb (key_in k permitted)) with false in Q by (destruct L as [-> | ->]; reflexivity).
    destruct L as [-> | ->]; bindE Q w Qw; bindE Q v Qv; bindE Q l Ql; injection Q as <-; (rewrite !ReadFrame.upd_other; [reflexivity| |]); intros <-; apply N; cbn; tauto.
Qed.
Lemma overriders_said r l : forall (d d' : na num), NoDup (map fst l) -> forR (overriders l) (fun p d => override r d p) d = Ok d' ->
  (forall n k, In (n, k) header_items -> match lookup n l with Some t => exists x, says k t x /\ d' k = Some x | None => d' k = d k end) /\
  forall k, ~ In k (map snd header_items) -> ~ In k [kSCOM; kNCOM; kNSCOML; kNNCOML] -> d' k = d k.
Proof.
  induction l as [|[n t] l IH]; intros d d' ND Q; [cbn in Q; injection Q as <-; split; [intros n k _|]; reflexivity|].
  cbn [map fst] in ND. inversion ND as [|? ? Ni ND']; subst. unfold overriders in Q. cbn [flat_map fst snd] in Q. fold (@overriders num l) in Q.
  destruct (lookup n override_keys) as [k0|] eqn:L.
  - cbn [app forR] in Q. bindE Q d1 Q1. destruct (IH _ _ ND' Q) as (A & B). destruct (override_said _ _ _ _ _ _ L Q1) as [(I0 & x & Sx & ->)|(N0 & K0)].
    2:{ split; [|intros k N1 N2; rewrite B, K0; auto]. intros n' k' I'. specialize (A _ _ I'). cbn [lookup]. destruct (str_eqb n' n) eqn:E.
        - apply str_eqb_eq in E as ->. apply header_item in I' as (_ & I' & L'). exfalso. apply N0. congruence.
        - destruct (lookup n' l) as [t'|]; [exact A|]. rewrite A. apply K0. apply header_item in I' as (_ & I' & _). intros J. cbn in I', J. intuition congruence. }
    split.
    + intros n' k' I'. cbn [lookup]. specialize (A _ _ I'). destruct (str_eqb n' n) eqn:E.
      * apply str_eqb_eq in E as ->. rewrite ConfigLemmas.lookup_none in A by exact Ni. apply header_item in I' as (_ & _ & L'). assert (k' = k0) as -> by congruence.
        exists x. split; [exact Sx|]. rewrite A. apply ReadFrame.upd_same.
      * destruct (lookup n' l) as [t'|]; [exact A|]. rewrite A. apply ReadFrame.upd_other. intros ->. apply header_item in I0 as (-> & _), I' as (-> & _). rewrite str_eqb_same in E. discriminate E.
    + intros k Nk Nk'. rewrite B by assumption. apply ReadFrame.upd_other. intros ->. apply Nk. apply header_item in I0 as (_ & I0 & _). exact I0.
  - cbn [app] in Q. destruct (IH _ _ ND' Q) as (A & B). split; [|exact B]. intros n' k' I'. cbn [lookup]. destruct (str_eqb n' n) eqn:E; [|apply A, I'].
    apply str_eqb_eq in E as ->. apply header_item in I' as (_ & _ & L'). congruence.
Qed.
Lemma headers_only_comments (d d' : na num) : updateWithColumnHeaders d = Ok d' -> forall k, ~ In k [kSCOM; kNCOM; kNSCOML; kNNCOML] -> d' k = d k.
Proof.
  intros Q k Nk. unfold updateWithColumnHeaders in Q. bindE Q ffi Q1. bindE Q b Q2. destruct b; [|injection Q as <-; reflexivity].
  bindE Q a Qa. bindE Q vn Qv. bindE Q ns Qn. bindE Q ss Qs. bindE Q nc Qc. bindE Q nc' Qc'. bindE Q l Ql. injection Q as <-.
  rewrite !ReadFrame.upd_other; [reflexivity| |]; intros <-; apply Nk; cbn; tauto.
Qed.
Lemma last_with_app {A} (f : A -> str) n l l' : last_with f n (l ++ l') = match last_with f n l' with Some x => Some x | None => last_with f n l end.
Proof.
  unfold last_with, last_of. rewrite flat_map_app, rev_app_distr. destruct (rev (flat_map _ l')); reflexivity.
Qed.
(** The dictionaries that are written have the header items of the command line,
    and of the local attributes those that the command line does not mention;
    apart from these, the comments and their counts, nothing changes. *)
Theorem C96_partial : forall fuel r headers local command (o : opts num) no_header limit name ds fs names ds' fs',
  writeNAFiles fuel (mkSettings r headers (overriders (dict_of_list (local ++ command)))) o no_header limit name ds fs = (Ok (names, ds'), fs') ->
  Forall2 (overridden local command) ds ds'.
Proof.
  intros fuel r headers local command o nh limit name ds fs names ds' fs' Q. unfold writeNAFiles in Q.
  assert (L : length (constructNAFileNames name (length ds)) = length ds) by apply names_length.
  set (ns := constructNAFileNames name (length ds)) in Q, L. clearbody ns. revert ns L fs names ds' fs' Q.
  induction ds as [|d ds IH]; intros [|n ns] L fs names ds' fs' Q; try discriminate L; cbn [combine write_all] in Q.
  - injection Q as _ <- _. constructor.
  - destruct (prepare _ d) as [d1|] eqn:P; [|discriminate Q]. destruct (write_one _ _ _ _ _ _ _) as [[nm|] f1]; [|discriminate Q].
    destruct (write_all _ _ _ _ _ (combine ns ds) _) as [[[nm' ds1]|] f2] eqn:W; [|discriminate Q]. injection Q as _ <- _.
    constructor; [|eapply IH; [|exact W]; now injection L]. clear - P. unfold prepare in P. cbn [st_overriders st_rule st_headers] in P. bindE P d2 P2.
    destruct (overriders_said _ _ _ _ (dict_nodup_names _) P2) as (A & B).
    assert (C : forall k, ~ In k [kSCOM; kNCOM; kNSCOML; kNNCOML] -> d1 k = d2 k) by (destruct headers; [apply headers_only_comments, P|intros; injection P as <-; reflexivity]).
    split.
    + intros n k I. specialize (A _ _ I). rewrite lookup_dict, last_with_app in A.
      assert (D : d1 k = d2 k). { apply C. apply header_item in I as (_ & I & _). intros J. cbn in I, J. intuition congruence. }
      destruct (last_with fst n command) as [[n1 t]|]; cbn [option_map snd] in A; [rewrite D; exact A|].
      destruct (last_with fst n local) as [[n1 t]|]; cbn [option_map snd] in A; rewrite D; exact A.
    + intros k N1 N2. rewrite C, B; auto.
Qed.
(** The files of a run of nc2na: the converted dictionaries, with the header items
    of --overwrite-metadata and of the local attributes, written as the other
    options say. *)
Lemma write_all_texts fuel s (o : opts num) nh : forall l fs names ds fs', write_all fuel s o nh None l fs = (Ok (names, ds), fs') -> NoDup (map fst l) ->
  Forall2 (fun n d => exists text, sd_get fs' n = Some text /\ text_of o nh d text) names ds.
Proof.
  induction l as [|[name d] l IH]; intros fs names ds fs' E ND; cbn [write_all] in E.
  - injection E as <- <- <-. constructor.
  - destruct (prepare s d) as [e|]; [|discriminate]. unfold write_one in E. destruct (put_file o nh name e fs) as [[r|] f] eqn:Ep; [|discriminate].
    destruct (write_all fuel s o nh None l f) as [[[names' ds']|] g] eqn:El; [|discriminate]. injection E as <- <- <-. cbn [map fst] in ND. inversion ND as [|? ? Ni ND']; subst.
    cbn [app]. constructor; [|eapply IH; eauto]. destruct (write_all_get _ _ _ _ _ _ _ _ _ El) as (-> & _ & Q). rewrite Q by exact Ni.
    unfold put_file in Ep. destruct (openNAFile_w e) as [[c e']|] eqn:Eo; [|discriminate Ep]. destruct (write_body o c nh (mkW [] [] e')) as [q st] eqn:Ew. injection Ep as -> <-.
    exists (w_file st). split; [rewrite UtilProps.sd_get_set, str_eqb_same; reflexivity|]. exists c, e', st. destruct r. auto.
Qed.
Theorem C96_program_partial : forall fuel (e : env num) r headers local fmt_of ann files l fs names fs',
  Forall nc_sayable l -> given is_names_only (map snd l) = false ->
  nc2na fuel e r headers local fmt_of ann (flat_map nc_words l) files fs = (Done names, fs') ->
  exists nc ds vars dicts dicts', last_of f_in (map snd l) = Some nc /\ files nc = Some ds /\
    readXarrayFile ds (match last_of f_vars (map snd l) with Some v => IList v | None => IAll end) (or_else [] (last_of f_exclude (map snd l))) true = Ok vars /\
    (exists q, convert e (last_of f_ffi (map snd l)) (ds_attrs ds) vars = Ok q /\ na_dicts q = dicts) /\
    Forall2 (overridden local (or_else [] (last_of f_meta (map snd l)))) dicts dicts' /\
    Forall2 (fun n d => exists text, sd_get fs' n = Some text /\
      text_of (mkOpts (or_else (lit "    ") (last_of f_delim (map snd l))) (fmt_of (or_else (lit "%.10g") (last_of f_format (map snd l))))
                 (given is_annotated (map snd l)) ann) (given is_no_header (map snd l)) d text) names dicts'.
Proof.
  intros fuel e r headers local fmt_of ann files l fs names fs' Hl Hg E.
  unfold nc2na in E. rewrite <- (app_nil_r (flat_map nc_words l)), nc_parse in E by (auto; exact I).
  destruct (last_of f_in (map snd l)) as [[|x nc]|] eqn:Hf; try discriminate.
  unfold nc_asked in E. cbn [x_nc_file x_override x_var_ids x_exclude_vars x_requested_ffi x_float_format x_size_limit x_annotation x_no_header x_na_file
    x_names_only x_delimiter] in E. rewrite Hf, Hg in E.
  destruct (files (x :: nc)) as [ds|] eqn:Ed; [|discriminate]. cbv zeta in E.
  unfold convertNCToNA in E. cbv zeta in E. cbn [n_env n_settings n_var_ids n_exclude n_ffi n_fmt n_size_limit n_annotation n_ann n_no_header] in E.
  destruct (readXarrayFile ds _ _ true) as [vars|] eqn:Ev; [|discriminate]. cbn [bindR] in E.
  destruct (convert e _ (ds_attrs ds) vars) as [q|] eqn:Ec; [|discriminate].
  destruct (date_clash _ _); [discriminate|].
  destruct (writeNAFiles _ _ _ _ _ _ _ _) as [[[names0 dicts']|] g] eqn:W; [|discriminate]. cbn [of_res] in E. injection E as <- <-.
  exists (x :: nc), ds, vars, (na_dicts q), dicts'. split; [reflexivity|]. split; [exact Ed|]. split; [exact Ev|]. split; [exists q; auto|].
  split; [eapply C96_partial, W|]. unfold writeNAFiles in W. eapply write_all_texts; [exact W|]. rewrite firsts by apply names_length. apply C42_distinct.
Qed.
End C96.
Definition c96_dict : na Z :=
  fold_left (fun d p => upd d (fst p) (snd p))
    [(kNLHEAD, PInt 0); (kFFI, PInt 1001); (kONAME, PStr (lit "Me")); (kORG, PStr (lit "Inst")); (kSNAME, PStr (lit "Source")); (kMNAME, PStr (lit "Title"));
     (kIVOL, PInt 1); (kNVOL, PInt 1); (kDATE, PList [PInt 2020; PInt 1; PInt 1]); (kRDATE, PList [PInt 2020; PInt 1; PInt 1]); (kNIV, PInt 1);
     (kDX, PList [PNum 1%Z]); (kXNAME, PList [PStr (lit "x")]); (kNV, PInt 1); (kVSCAL, PList [PNum 1%Z]); (kVMISS, PList [PNum (-999)%Z]);
     (kVNAME, PList [PStr (lit "v")]); (kNSCOML, PInt 0); (kSCOM, PList []); (kNNCOML, PInt 0); (kNCOM, PList []); (kNAUXV, PInt 0);
     (kX, PList [PNum 1; PNum 2]%Z); (kV, PList [PList [PNum 10; PNum 20]%Z])] na_empty.
(** Local attributes, and a command line that goes against one of them. *)
Example C96_example : exists names ds' fs',
  writeNAFiles 5 (mkSettings RInsert true (overriders (dict_of_list ([(lit "ORG", lit "Local"); (lit "SNAME", lit "Here")] ++ [(lit "ORG", lit "Other"); (lit "DATE", lit "2021 2 3")]))))
    (mkOpts (lit " ") dec_of_Z false (fun _ => None)) false None (lit "a.na") [c96_dict] [] = (Ok (names, ds'), fs') /\
  map (fun d => map d [kORG; kSNAME; kONAME; kDATE]) ds' =
    [[Some (PStr (lit "Other")); Some (PStr (lit "Here")); Some (PStr (lit "Me")); Some (PList [PInt 2021; PInt 2; PInt 3])]].
Proof.
  set (q := writeNAFiles _ _ _ _ _ _ _ _).
  assert (K : match fst q with Ok (_, ds') => Some (map (fun d => map d [kORG; kSNAME; kONAME; kDATE]) ds') | Err _ => None end =
    Some [[Some (PStr (lit "Other")); Some (PStr (lit "Here")); Some (PStr (lit "Me")); Some (PList [PInt 2021; PInt 2; PInt 3])]]) by (vm_compute; reflexivity).
  destruct q as [[[names ds']|e] fs']; cbn [fst] in K; [|discriminate K]. exists names, ds', fs'. split; [reflexivity|congruence].
Qed.
(** With the local attributes that are distributed, the organisation in a file
    converted from NetCDF is never that of the NetCDF file, although nobody has
    asked for another one. *)
Definition badc : str := lit "Data held at British Atmospheric Data Centre (BADC), Rutherford Appleton Laboratory, UK.".
Theorem C96_refuted : exists (files : str -> option (dataset Z)) ds l local names fs' content d,
  makeLocalAttributesConfigDict (Some local_attributes_ini) = Got [(lit "nc_attributes", [(lit "institution", badc)]); (lit "na_attributes", local)] /\
  Forall nc_sayable l /\ (forall m, ~ In (OMeta m) (map snd l)) /\
  files (lit "a.nc") = Some ds /\ lookup (lit "institution") (ds_attrs ds) = Some (gstr (lit "Inst")) /\
  nc2na 10 env_Z RInsert false local (fun _ => dec_of_Z) (fun _ => None) (flat_map nc_words l) files [] = (Done names, fs') /\
  sd_get fs' (lit "o.na") = Some content /\ read_file content 0 = Ok (C1001, d) /\ d kORG = Some (PStr badc) /\ d kONAME = Some (PStr (lit "Inst")).
Proof.
  exists nc_files, ex_ds, nc2na_line, [(lit "ORG", badc)]. 
  set (q := nc2na 10 env_Z RInsert false [(lit "ORG", badc)] (fun _ => dec_of_Z) (fun _ => None) (flat_map nc_words nc2na_line) nc_files []).
  assert (K : match q with
              | (Done names, fs) => match sd_get fs (lit "o.na") with
                                    | Some c => match read_file c 0 with Ok (C1001, d) => (d kORG, d kONAME) | _ => (None, None) end
                                    | None => (None, None)
                                    end
              | _ => (None, None)
              end = (Some (PStr badc), Some (PStr (lit "Inst")))) by (vm_compute; reflexivity).
  destruct q as [[names| |] fs']; try discriminate K. destruct (sd_get fs' (lit "o.na")) as [content|] eqn:E; [|discriminate K].
  destruct (read_file content 0) as [[c d]|] eqn:R; [|discriminate K]. destruct c; try discriminate K.
  exists names, fs', content, d. split; [vm_compute; reflexivity|]. split; [exact (proj1 C91_example)|]. split.
  { intros m I. cbn in I. repeat destruct I as [I|I]; try discriminate I; contradiction. }
  split; [reflexivity|]. split; [reflexivity|]. split; [reflexivity|]. split; [exact E|]. split; [exact R|]. split; [exact (f_equal fst K)|exact (f_equal snd K)].
Qed.

(** ** C97 *)
Section C97.
Context {num : Type} `{NumOps num}.
(** The annotations of a file, as a function of the name of an item. *)
Definition annotations_of (r : ini (list (str * str))) (item : str) : option str := match r with Got l => lookup item l | Bad _ => None end.
(** A file of annotations that has a text on one line for every item: annotated
    files are written from the same dictionaries as plain ones, and are the plain
    files with annotations inserted.  Missing from the full claim: the annotation
    of every line stands at its start (C21), and files without some of the items. *)
Theorem C97_partial : forall conf ls items (o : opts num),
  config_text conf ls -> proper_lines ls -> In (lit "annotations", items) conf ->
  (forall i, In i ann_items -> In i (map fst items)) -> (forall i a, In (i, a) items -> ~ In c_nl a) ->
  o_ann o = annotations_of (makeAnnotationsConfigDict (Some (unlines ls))) -> ~ In c_nl (o_delim o) ->
  (forall i a, In (i, a) items -> o_ann o i = Some a) /\
  forall c no_header h d r st, write_body (plain o) c no_header (mkW [] h d) = (r, st) ->
    exists st', write_body (annotated o) c no_header (mkW [] h d) = (r, st') /\ w_na st' = w_na st /\
      with_annotations o (w_file st) (w_file st') /\ count_chr c_nl (w_file st') = count_chr c_nl (w_file st).
Proof.
  intros conf ls items o T P I All One Eo Dl.
  assert (E : makeAnnotationsConfigDict (Some (unlines ls)) = Got items).
  { unfold makeAnnotationsConfigDict, read_conf. rewrite (config_read _ _ T P). cbn [bindI]. eapply items_found; eauto. }
  rewrite E in Eo. cbn [annotations_of] in Eo. destruct (config_facts _ _ T) as (_ & _ & ND). specialize (ND _ _ I).
  assert (F : forall i a, In (i, a) items -> o_ann o i = Some a) by (intros i a J; rewrite Eo; cbn [annotations_of]; apply lookup_in; assumption).
  split; [exact F|]. intros c nh h d r st W. apply C21_every_dictionary_partial; [| |exact W].
  - intros i J. apply All in J. apply in_map_iff in J as ([i' a] & <- & J). exists a. apply F, J.
  - split; [exact Dl|]. intros i a J. rewrite Eo in J. cbn [annotations_of] in J. eapply One, lookup_found, J.
Qed.
End C97.
(** The distributed file. *)
Definition annotation_options : list (str * (str * str)) := [
   (lit "NLHEAD_FFI", (lit "Number of header lines; NASA Ames sub-format code", lit ""));
   (lit "ONAME", (lit "Name of data creator", lit ""));
   (lit "ORG", (lit "Institute of data creator", lit ""));
   (lit "SNAME", (lit "Instrument or model name", lit ""));
   (lit "MNAME", (lit "Project name", lit ""));
   (lit "IVOL_NVOL", (lit "File number; Total number of files", lit ""));
   (lit "DATE_RDATE", (lit "Starting date of data (YYYY MM DD); File creation date (YYYY MM DD)", lit ""));
   (lit "DX", (lit "Interval between coordinate variable values (zero if not used)", lit ""));
   (lit "NVPM", (lit "Number of extra independent variable points between independent variable values", lit ""));
   (lit "NX", (lit "Length of coordinate variables", lit ""));
   (lit "NXDEF", (lit "Number of coordinate variable values explicity defined in header", lit ""));
   (lit "X", (lit "Values of coordinate variable", lit ""));
   (lit "LENX", (lit "Number of characters in character-based coordinate variable", lit ""));
   (lit "LENA", (lit "Number of characters in character-based auxiliary variable", lit ""));
   (lit "XNAME", (lit "Name of coordinate variable (with units)", lit ""));
   (lit "NV", (lit "Number of primary variables defined", lit ""));
   (lit "VSCAL", (lit "Scale factors for each primary variable", lit ""));
   (lit "VMISS", (lit "Missing values for each primary variable", lit ""));
   (lit "VNAME", (lit "Name of primary variable (with units)", lit ""));
   (lit "NAUXV", (lit "Number of auxiliary variables", lit ""));
   (lit "NAUXC", (lit "Number of character-based auxiliary variables", lit ""));
   (lit "ASCAL", (lit "Scale factors for each auxiliary variable", lit ""));
   (lit "AMISS", (lit "Missing values for each auxiliary variable", lit ""));
   (lit "ANAME", (lit "Name of auxiliary variable (with units)", lit ""));
   (lit "NSCOML", (lit "Number of lines of special comments", lit ""));
   (lit "SCOM", (lit "Special comments line", lit ""));
   (lit "NNCOML", (lit "Number of lines of normal comments", lit ""));
   (lit "NCOM", (lit "Normal comments line", lit ""));
   (lit "Data", (lit "Data section", lit " "))].
Definition distributed_annotations : list (str * str) := map (fun p => (fst p, rstrip (fst (snd p)))) annotation_options.
Example C97_example : let ls := ([c_lbrack] ++ lit "annotations" ++ [c_rbrack]) :: map simple_line annotation_options in
  annotations_ini = unlines ls /\ config_text [(lit "annotations", distributed_annotations)] ls /\ proper_lines ls /\
  (forall i, In i ann_items -> In i (map fst distributed_annotations)) /\ forall i a, In (i, a) distributed_annotations -> ~ In c_nl a.
Proof.
  intros ls. split; [vm_compute; reflexivity|].
  assert (ND : NoDup (map fst annotation_options)).
  { apply nodup_check. vm_compute. reflexivity. }
  split.
  - replace ls with ([] ++ concat [ls]) by (cbn [app concat]; apply app_nil_r). apply config_lines; [constructor| |repeat constructor; intros []].
    constructor; [|constructor]. apply simple_section; [discriminate|intros Q; vm_compute in Q; discriminate Q|vm_compute; reflexivity|exact ND].
  - split.
    + assert (Q : forallb (fun l => negb (mem_chr c_nl l) && negb (mem_chr c_cr l)) ls = true) by (vm_compute; reflexivity).
      intros l I. rewrite forallb_forall in Q. specialize (Q _ I). apply andb_prop in Q as [Q1 Q2].
      split; apply mem_chr_false; [now destruct (mem_chr c_nl l)|now destruct (mem_chr c_cr l)].
    + split.
      * assert (Q : forallb (fun i => mem_str i (map fst distributed_annotations)) ann_items = true) by (vm_compute; reflexivity).
        intros i I. rewrite forallb_forall in Q. apply mem_str_in, Q, I.
      * assert (Q : forallb (fun p => negb (mem_chr c_nl (snd p))) distributed_annotations = true) by (vm_compute; reflexivity).
        intros i a I. rewrite forallb_forall in Q. specialize (Q _ I). cbn [snd] in Q. apply mem_chr_false. now destruct (mem_chr c_nl a).
Qed.
(** A file of annotations without one of the items: the plain file can be
    written and the annotated one cannot. *)
Theorem C97_refuted : exists text (o : opts Z) d st e st', o_ann o = annotations_of (makeAnnotationsConfigDict (Some text)) /\
  write_body (plain o) C1001 false (mkW [] [] d) = (Ok tt, st) /\ write_body (annotated o) C1001 false (mkW [] [] d) = (Err e, st').
Proof.
  exists (unlines (map lit ["[annotations]"; "NLHEAD_FFI = Lines"]%pylit)).
  set (text := unlines _).
  exists (mkOpts (lit " ") dec_of_Z false (annotations_of (makeAnnotationsConfigDict (Some text)))), c96_dict.
  set (p := write_body (plain _) _ _ _). set (q := write_body (annotated _) _ _ _).
  assert (K : match fst p, fst q with Ok tt, Err e => Some e | _, _ => None end = Some EKeyError) by (vm_compute; reflexivity).
  destruct p as [[[]|] st]; [|discriminate K]. destruct q as [[|e] st']; [discriminate K|]. exists st, e, st'. auto.
Qed.

Print Assumptions C94_sections.
Print Assumptions C95_partial.
Print Assumptions C95_refuted.
Print Assumptions C95_shared_refuted.
Print Assumptions C95_missing_refuted.
Print Assumptions C96_partial.
Print Assumptions C96_program_partial.
Print Assumptions C96_refuted.
Print Assumptions C97_partial.
Print Assumptions C97_refuted.
