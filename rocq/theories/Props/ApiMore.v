(** C72 to C74: the files that the conversions of nappy_api.py write. *)
From Coq Require Import List NArith ZArith Bool Lia.
From Verif Require Import Py.Str Py.Res Py.Num Py.Arith Model.Dict Model.TextParser Model.CommonUtils Model.NAWrite Model.NARead
  Model.NACore Model.Utils Model.NCWrite Model.Xarray Model.Collector Model.ToXarray Model.Api Spec.RowSpec
  Spec.ZNum Spec.ApiSpec Proofs.StrLemmas Proofs.CollectorLemmas Props.DelimProps Props.CollectorProps Props.UtilProps Props.ApiProps.
Import ListNotations.
Local Open Scope nat_scope.

(** * C72 *)
Section C72.
Context {num : Type} `{NumOps num} `{ArithOps num}.
Variables (o : opts num) (d' : str).
Hypotheses (Ha : o_annot o = false) (Hs : solid_numbers o) (Hd : blank_or_comma (o_delim o)) (Hd' : blank_or_comma d').
Local Notation near := (Forall2 (same_rows (o_delim o) d')).
Lemma near_set fs fs' name rows : near fs fs' -> near (sd_set fs name (rows_text (o_delim o) rows)) (sd_set fs' name (rows_text d' rows)).
Proof.
  induction 1 as [|[k v] [k' v'] fs fs' (K & r & E1 & E2) F IH]; cbn [sd_set].
  - repeat constructor. exists rows. auto.
  - cbn [fst snd] in *. subst k'. destruct (str_eqb name k); constructor; auto; (split; [reflexivity|cbn [snd]; eauto]).
Qed.
Lemma near_put nh name d fs fs' : near fs fs' ->
  fst (put_file (with_delim o d') nh name d fs') = fst (put_file o nh name d fs) /\
  near (snd (put_file o nh name d fs)) (snd (put_file (with_delim o d') nh name d fs')).
Proof.
  intros F. unfold put_file. destruct (openNAFile_w d) as [[c e]|]; [|auto].
  pose proof (C67_rows_partial o d' c nh [] e Ha Hs Hd Hd') as K.
  destruct (write_body o c nh (mkW [] [] e)) as [r s], (write_body (with_delim o d') c nh (mkW [] [] e)) as [r' s'].
  destruct K as (-> & _ & rows & E1 & E2). cbn [fst snd]. split; [reflexivity|]. rewrite E1, E2. now apply near_set.
Qed.
Lemma near_loop d file_name vl sl al nvol : forall fuel start ivol names fs fs', near fs fs' ->
  fst (subsets_loop fuel (with_delim o d') d file_name vl sl al nvol start ivol names fs') = fst (subsets_loop fuel o d file_name vl sl al nvol start ivol names fs) /\
  near (snd (subsets_loop fuel o d file_name vl sl al nvol start ivol names fs)) (snd (subsets_loop fuel (with_delim o d') d file_name vl sl al nvol start ivol names fs')).
Proof.
  induction fuel as [|fuel IH]; intros start ivol names fs fs' F; cbn [subsets_loop]; [auto|].
  destruct (start <? al)%Z; [|auto]. cbv zeta. destruct (bindR _ _) as [e|]; [|auto].
  destruct (near_put false (chunk_name file_name (ivol + 1)) e _ _ F) as [P1 P2].
  destruct (put_file o false _ e fs) as [r f], (put_file (with_delim o d') false _ e fs') as [r' f']. cbn [fst snd] in *. subst r'.
  destruct r; [|auto]. apply IH. exact P2.
Qed.
Lemma near_one fuel nh sl name d fs fs' : near fs fs' ->
  fst (write_one fuel (with_delim o d') nh sl name d fs') = fst (write_one fuel o nh sl name d fs) /\
  near (snd (write_one fuel o nh sl name d fs)) (snd (write_one fuel (with_delim o d') nh sl name d fs')).
Proof.
  intros F. assert (W : let whole o fs := match put_file o nh name d fs with (Err e, fs') => (Err e, fs') | (Ok _, fs') => (Ok [name], fs') end in
    fst (whole (with_delim o d') fs') = fst (whole o fs) /\ near (snd (whole o fs)) (snd (whole (with_delim o d') fs'))).
  { cbv zeta. destruct (near_put nh name d _ _ F) as [P1 P2].
    destruct (put_file o nh name d fs) as [r f], (put_file (with_delim o d') nh name d fs') as [r' f']. cbn [fst snd] in *. subst r'.
    destruct r; auto. }
  cbv zeta in W. unfold write_one. destruct sl as [s|]; [|exact W]. destruct (bindR _ _) as [[|]|]; [|exact W|auto].
  unfold writeNAFileSubsets. destruct (bindR _ _) as [[vl al]|]; [|auto]. destruct (s =? 0)%Z; [auto|]. now apply near_loop.
Qed.
Lemma near_all fuel s nh sl : forall l fs fs', near fs fs' ->
  fst (write_all fuel s (with_delim o d') nh sl l fs') = fst (write_all fuel s o nh sl l fs) /\
  near (snd (write_all fuel s o nh sl l fs)) (snd (write_all fuel s (with_delim o d') nh sl l fs')).
Proof.
  induction l as [|[name d] l IH]; intros fs fs' F; cbn [write_all]; [auto|].
  destruct (prepare s d) as [e|]; [|auto]. destruct (near_one fuel nh sl name e _ _ F) as [P1 P2].
  destruct (write_one fuel o nh sl name e fs) as [r f], (write_one fuel (with_delim o d') nh sl name e fs') as [r' f']. cbn [fst snd] in *. subst r'.
  destruct r as [names|]; [|auto]. destruct (IH _ _ P2) as [Q1 Q2].
  destruct (write_all fuel s o nh sl l f) as [q g], (write_all fuel s (with_delim o d') nh sl l f') as [q' g']. cbn [fst snd] in *. subst q'.
  destruct q as [[? ?]|]; auto.
Qed.
End C72.
(** Without [csv_file] and without annotation: [convertNCToCSV] returns the same
    file names or the same error as [convertNCToNA] with the name of the CSV file,
    whatever delimiter is given, and writes the same rows, separated by commas. *)
Theorem C72_rows_partial : forall num (Num : NumOps num) (Ar : ArithOps num) fuel (a : nc_args num) nc_file ds na_file only_names delimiter given,
  n_annotation a = false -> (forall x, solid (n_fmt a x)) -> blank_or_comma delimiter ->
  match convertNCToNA fuel a nc_file ds (Some (getFileNameWithNewExtension nc_file (lit "csv"))) only_names delimiter [],
        convertNCToCSV fuel a nc_file ds None na_file only_names given [] with
  | (r, files), (r', files') => r' = r /\ Forall2 (same_rows delimiter (lit ",")) files files'
  end.
Proof.
  intros num Num Ar fuel a nc ds nf only_names dl given Ha Hs Hd. unfold convertNCToCSV, convertNCToNA.
  destruct (bindR _ _) as [r|]; [|auto]. cbv zeta. destruct only_names; [auto|]. destruct (date_clash _ _); [auto|]. unfold writeNAFiles.
  set (o := mkOpts dl (n_fmt a) (n_annotation a) (n_ann a)).
  assert (C : blank_or_comma (lit ",")) by (intros x Hx; right; destruct Hx as [<-|[]]; reflexivity).
  destruct (near_all o (lit ",") Ha Hs Hd C fuel (n_settings a) (n_no_header a) (n_size_limit a)
    (combine (constructNAFileNames (getFileNameWithNewExtension nc (lit "csv")) (length (na_dicts r))) (na_dicts r)) [] [] (Forall2_nil _)) as [P1 P2].
  change (mkOpts (lit ",") (n_fmt a) (n_annotation a) (n_ann a)) with (with_delim o (lit ",")).
  destruct (write_all fuel (n_settings a) o _ _ _ []) as [q g], (write_all fuel (n_settings a) (with_delim o (lit ",")) _ _ _ []) as [q' g'].
  cbn [fst snd] in *. subst q'. destruct q as [[? ?]|]; auto.
Qed.
(** False of the code when [csv_file] is given: the name is ignored, a file for
    NASA Ames with the default delimiter is written instead. *)
Definition ask_all : nc_args Z := ex_args IAll [] None.
Theorem C72_refuted : exists (ds : dataset Z) files,
  convertNCToCSV 10 ask_all (lit "a.nc") ds (Some (lit "out.csv")) None false None [] = (Ok [lit "a.nc.na"], files) /\
  convertNCToNA 10 ask_all (lit "a.nc") ds None false default_delimiter [] = (Ok [lit "a.nc.na"], files) /\
  sd_get files (lit "out.csv") = None /\ exists content, sd_get files (lit "a.nc.na") = Some content /\ contains (lit "2    281") content = true.
Proof.
  set (files := snd (convertNCToNA 10 ask_all (lit "a.nc") ex_ds None false default_delimiter [])).
  exists ex_ds, files. split; [vm_compute; reflexivity|]. split; [vm_compute; reflexivity|]. split; [vm_compute; reflexivity|].
  assert (K : match sd_get files (lit "a.nc.na") with Some content => contains (lit "2    281") content = true | None => False end) by (vm_compute; reflexivity).
  destruct (sd_get files (lit "a.nc.na")) as [content|]; [|destruct K]. exists content. auto.
Qed.
Example C72_example : exists content,
  convertNCToCSV 10 ask_all (lit "a.nc") ex_ds None None false None [] = (Ok [lit "a.nc.csv"], [(lit "a.nc.csv", content)]) /\
  contains (lit "2,281") content = true.
Proof.
  set (files := snd (convertNCToCSV 10 ask_all (lit "a.nc") ex_ds None None false None [])).
  exists (snd (nth 0 files ([], []))). split; vm_compute; reflexivity.
Qed.
Print Assumptions C72_rows_partial.
Print Assumptions C72_refuted.

(** * C73 *)
Section C73.
Context {num : Type} `{NumOps num} `{ArithOps num}.
Lemma put_get o nh name (d : na num) fs r fs' : put_file o nh name d fs = (Ok r, fs') ->
  sd_get fs' name <> None /\ forall n, n <> name -> sd_get fs' n = sd_get fs n.
Proof.
  unfold put_file. destruct (openNAFile_w d) as [[c e]|]; [|discriminate]. destruct (write_body o c nh _) as [q s]. intros E. injection E as -> <-.
  split; [rewrite sd_get_set, (proj2 (str_eqb_eq name name) eq_refl); discriminate|]. intros n Hn. rewrite sd_get_set. destruct (str_eqb n name) eqn:K; [|reflexivity].
  apply str_eqb_eq in K. contradiction.
Qed.
Lemma write_all_get fuel s o nh : forall l fs names ds fs', write_all (num := num) fuel s o nh None l fs = (Ok (names, ds), fs') ->
  names = map fst l /\ (forall n, In n names -> sd_get fs' n <> None) /\ forall n, ~ In n names -> sd_get fs' n = sd_get fs n.
Proof.
  induction l as [|[name d] l IH]; intros fs names ds fs' E; cbn [write_all] in E.
  - injection E as <- <- <-. cbn. intuition.
  - destruct (prepare s d) as [e|]; [|discriminate]. unfold write_one in E. destruct (put_file o nh name e fs) as [[r|] f] eqn:Ep; [|discriminate].
    destruct (write_all fuel s o nh None l f) as [[[names' ds']|] g] eqn:El; [|discriminate]. injection E as <- <- <-.
    destruct (put_get _ _ _ _ _ _ _ Ep) as [P1 P2]. destruct (IH _ _ _ _ El) as (-> & Q1 & Q2). cbn [map fst app]. split; [reflexivity|]. split.
    + intros n [<-|Hn]; [|auto]. destruct (in_dec (list_eq_dec N.eq_dec) name (map fst l)) as [Hi|Hi]; [auto|]. now rewrite Q2.
    + intros n Hn. rewrite Q2, P2; auto; intros K; apply Hn; [now left|now right].
Qed.
Lemma names_length na_file n : length (constructNAFileNames na_file n) = n.
Proof. unfold constructNAFileNames. destruct (Nat.eqb_spec n 1) as [-> |]; [reflexivity|]. now rewrite map_length, seq_length. Qed.
Lemma firsts {A B} : forall (l : list A) (m : list B), length l = length m -> map fst (combine l m) = l.
Proof. induction l as [|x l IH]; intros [|y m] L; try discriminate; [reflexivity|]. cbn [combine map fst]. f_equal. apply IH. now injection L. Qed.
(** Without size limit: asking for the names of the files writes nothing and gives
    the names of the files that the conversion writes, in that order; it writes
    no others. *)
Theorem C73_names_partial : forall fuel (a : nc_args num) nc_file ds na_file delimiter fs names fs' names' fs'',
  n_size_limit a = None ->
  convertNCToNA fuel a nc_file ds na_file true delimiter fs = (Ok names, fs') ->
  convertNCToNA fuel a nc_file ds na_file false delimiter fs = (Ok names', fs'') ->
  fs' = fs /\ names' = names /\ (forall n, In n names -> sd_get fs'' n <> None) /\ forall n, ~ In n names -> sd_get fs'' n = sd_get fs n.
Proof.
  intros fuel a nc ds nf dl fs names fs' names' fs'' Hl E1 E2. unfold convertNCToNA in *. cbv zeta in *.
  destruct (bindR _ _) as [r|]; [|discriminate]. injection E1 as <- <-. split; [reflexivity|]. destruct (date_clash _ _); [discriminate|]. rewrite Hl in E2.
  destruct (writeNAFiles _ _ _ _ _ _ _ _) as [[[names0 ds0]|] g] eqn:E; [|discriminate]. injection E2 as <- <-.
  unfold writeNAFiles in E. apply write_all_get in E as (E & Q1 & Q2).
  assert (K : names0 = constructNAFileNames (match nf with Some f => f | None => getFileNameWithNewExtension nc (lit "na") end) (length (na_dicts r))).
  { rewrite E. apply firsts, names_length. }
  change [110%N; 97%N] with (lit "na"). rewrite <- K. auto.
Qed.
End C73.
(** False of the code with a size limit: the names are of other files. *)
Theorem C73_refuted : exists (ds : dataset Z) names fs',
  convertNCToNA 10 (ex_args IAll [] (Some 2%Z)) (lit "a.nc") ds (Some (lit "a.na")) true (lit " ") [] = (Ok [lit "a.na"], []) /\
  convertNCToNA 10 (ex_args IAll [] (Some 2%Z)) (lit "a.nc") ds (Some (lit "a.na")) false (lit " ") [] = (Ok names, fs') /\
  map fst fs' = [lit "a-001.na"; lit "a-002.na"] /\ sd_get fs' (lit "a.na") = None.
Proof.
  set (p := convertNCToNA 10 (ex_args IAll [] (Some 2%Z)) (lit "a.nc") ex_ds (Some (lit "a.na")) false (lit " ") []).
  exists ex_ds, (match fst p with Ok l => l | Err _ => [] end), (snd p). repeat split; vm_compute; reflexivity.
Qed.
Example C73_example :
  fst (convertNCToNA 10 ask_all (lit "a.nc") ex_ds (Some (lit "a.na")) true (lit " ") []) = Ok [lit "a.na"] /\
  fst (convertNCToNA 10 ask_all (lit "a.nc") ex_ds (Some (lit "a.na")) false (lit " ") []) = Ok [lit "a.na"].
Proof. split; vm_compute; reflexivity. Qed.
Print Assumptions C73_names_partial.
Print Assumptions C73_refuted.

(** * C74 *)
(** Except for empty texts, [fix_attrs] keeps the names and the values of
    attributes. *)
Theorem C74_kept_partial : forall num (l l' : list (str * gval num)),
  fix_attrs l = Ok l' ->
  Forall2 (fun p q => fst q = fst p /\ (g_val (snd p) <> PStr [] -> g_val (snd q) = g_val (snd p))) l l'.
Proof.
  intros num. induction l as [|[k g] l IH]; intros l' E; unfold fix_attrs in E; cbn [mapR fst snd] in E; [injection E as <-; constructor|].
  destruct (fix_int g) as [g'|] eqn:Eg; cbn [bindR] in E; [|discriminate]. destruct (mapR _ l) as [t|] eqn:Et; cbn [bindR] in E; [|discriminate].
  injection E as <-. constructor; [|apply IH; exact Et]. split; [reflexivity|]. cbn [snd]. intros Hn. unfold fix_int in Eg.
  destruct (g_np g); [now injection Eg as <-|]. destruct (g_val g) as [|z|x|s|m] eqn:Ev.
  - now injection Eg as <-.
  - unfold to_np_int in Eg. destruct (in_int32 z); cbn [bindR] in Eg; [|discriminate]. now injection Eg as <-.
  - now injection Eg as <-.
  - destruct s; [contradiction|]. now injection Eg as <-.
  - destruct (forallb is_int m) eqn:Ei; [|now injection Eg as <-].
    destruct (mapR to_np_int m) as [m'|] eqn:Em; cbn [bindR] in Eg; [|discriminate]. injection Eg as <-. cbn [g_val]. f_equal.
    clear - Em. revert m' Em. induction m as [|v m IH]; intros m' Em; cbn [mapR] in Em; [now injection Em as <-|].
    destruct (to_np_int v) as [w|] eqn:Ew; cbn [bindR] in Em; [|discriminate]. destruct (mapR to_np_int m) as [t|]; cbn [bindR] in Em; [|discriminate].
    injection Em as <-. f_equal; [|now apply IH]. unfold to_np_int in Ew. destruct v; try discriminate. destruct (in_int32 z); congruence.
Qed.
(** It fails only for an integer, or a list of integers, beyond 32 bits. *)
Definition fits (num : Type) (v : pyv num) : Prop :=
  match v with PInt z => (-2147483648 <= z <= 2147483647)%Z | PList l => Forall (fun e => match e with PInt z => (-2147483648 <= z <= 2147483647)%Z | _ => True end) l | _ => True end.
Theorem C74_succeeds_partial : forall num (l : list (str * gval num)), Forall (fun p => fits num (g_val (snd p))) l -> exists l', fix_attrs l = Ok l'.
Proof.
  intros num l. unfold fix_attrs. assert (R : forall z, (-2147483648 <= z <= 2147483647)%Z -> in_int32 z = true).
  { intros z Hz. unfold in_int32. apply andb_true_intro. split; apply Z.leb_le; lia. }
  induction 1 as [|[k g] l Hg Hl (t & IH)]; [eexists; reflexivity|]. cbn [mapR fst snd] in *. rewrite IH.
  assert (K : exists g', fix_int g = Ok g'); [|destruct K as (g' & ->); cbn [bindR]; eauto].
  unfold fix_int. destruct (g_np g); [eauto|]. destruct (g_val g) as [|z|x|s|m]; cbn [fits] in Hg; [eauto| |eauto|destruct s; eauto|].
  - unfold to_np_int. rewrite (R _ Hg). cbn [bindR]. eauto.
  - destruct (forallb is_int m) eqn:Ei; [|eauto]. assert (K : exists m', mapR to_np_int m = Ok m'); [|destruct K as (m' & ->); cbn [bindR]; eauto].
    clear IH Hl. induction m as [|v m IH]; [eexists; reflexivity|]. inversion Hg; subst. cbn [forallb] in Ei. apply andb_prop in Ei as [E1 E2].
    destruct (IH ltac:(assumption) E2) as (m' & K). destruct v; try discriminate. cbn [mapR]. unfold to_np_int at 1. rewrite R by assumption.
    cbn [bindR]. rewrite K. cbn [bindR]. eauto.
Qed.
(** False of the code: the attribute of a variable without units is the empty
    text, which becomes an empty list; and an integer of more than 32 bits is an
    error. *)
Theorem C74_refuted : fix_attrs (num := Z) [(lit "units", gstr [])] = Ok [(lit "units", mkG true (PList []))] /\
  fix_attrs (num := Z) [(lit "serial", gint 4000000000)] = Err EValueError.
Proof. split; reflexivity. Qed.
Example C74_example : fix_attrs (num := Z) [(lit "units", gstr (lit "K")); (lit "n", gint 3); (lit "l", mkG false (PList [PInt 1; PInt 2]%Z))] =
  Ok [(lit "units", gstr (lit "K")); (lit "n", mkG true (PInt 3%Z)); (lit "l", mkG true (PList [PInt 1; PInt 2]%Z))].
Proof. reflexivity. Qed.
Print Assumptions C74_kept_partial.
Print Assumptions C74_succeeds_partial.
Print Assumptions C74_refuted.
