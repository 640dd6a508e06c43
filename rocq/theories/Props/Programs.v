(** The programs na2nc and nc2na from the command line to the files (C89 to
    C91). *)
From Coq Require Import List NArith ZArith Bool Lia.
From Verif Require Import Py.Str Py.Res Py.Num Py.Arith Model.Dict Model.TextParser Model.CommonUtils Model.NAWrite Model.NARead
  Model.NACore Model.Utils Model.NCWrite Model.Xarray Model.Collector Model.ToXarray Model.Api Model.Getopt Model.CommandLine Model.Programs
  Spec.ZNum Spec.Binary64 Proofs.StrLemmas Proofs.CollectorLemmas Props.CollectorProps Props.ToXarrayProps Props.ToXarrayMore Props.ApiProps Props.ApiMore Props.UtilProps Spec.CommandLineSpec
  Spec.ProgramSpec Props.CommandLine.
Import ListNotations.

(** ** Dictionaries *)
Section Dict.
Context {A : Type}.
Implicit Type l : list (str * A).
Lemma lookup_dict l k : lookup k (dict_of_list l) = option_map snd (last_with fst k l).
Proof.
  unfold last_with. induction l as [|[k' v] l IH] using rev_ind; [reflexivity|].
  unfold dict_of_list. rewrite fold_left_app. cbn [fold_left fst snd]. change (fold_left _ l []) with (dict_of_list l).
  rewrite last_of_snoc. cbn [fst]. destruct (str_eqb k' k) eqn:E.
  - apply str_eqb_eq in E. subst k'. rewrite dset_lookup. reflexivity.
  - rewrite dset_other; [exact IH|]. intros ->. rewrite str_eqb_refl in E. discriminate.
Qed.
Lemma dset_names k (v : A) l : In k (map fst l) /\ map fst (dset k v l) = map fst l \/ ~ In k (map fst l) /\ map fst (dset k v l) = map fst l ++ [k].
Proof.
  induction l as [|[k' v'] l IH]; [right; split; [easy|reflexivity]|]. cbn [dset]. destruct (str_eqb k k') eqn:E.
  - apply str_eqb_eq in E. subst k'. left. split; [now left|reflexivity].
  - cbn [map fst app In]. destruct IH as [[I ->]|[N ->]]; [left|right]; (split; [|reflexivity]); [now right|].
    intros [->|K]; [rewrite str_eqb_refl in E; discriminate|contradiction].
Qed.
Lemma dict_nodup_names l : NoDup (map fst (dict_of_list l)).
Proof.
  induction l as [|[k v] l IH] using rev_ind; [constructor|].
  unfold dict_of_list. rewrite fold_left_app. cbn [fold_left fst snd]. change (fold_left _ l []) with (dict_of_list l).
  destruct (dset_names k v (dict_of_list l)) as [[_ ->]|[N ->]]; [exact IH|].
  apply NoDup_rev in IH. replace (map fst (dict_of_list l) ++ [k]) with (rev (k :: rev (map fst (dict_of_list l)))) by (cbn [rev]; now rewrite rev_involutive).
  apply NoDup_rev.
  constructor; [now rewrite <- in_rev|exact IH].
Qed.
Lemma lookup_in l k v : lookup k l = Some v -> In (k, v) l.
Proof.
  induction l as [|[k' v'] l IH]; [discriminate|]. cbn [lookup]. destruct (str_eqb k k') eqn:E; [|right; auto].
  intros K. injection K as ->. apply str_eqb_eq in E as ->. now left.
Qed.
Lemma lookup_none l k : lookup k l = None -> ~ In k (map fst l).
Proof.
  induction l as [|[k' v'] l IH]; [easy|]. cbn [lookup]. destruct (str_eqb k k') eqn:E; [discriminate|].
  intros K [<-|I]; [cbn in E; rewrite str_eqb_refl in E; discriminate|exact (IH K I)].
Qed.
End Dict.
Lemma last_with_map {A B} (f : A -> B) (name : B -> str) n l : last_with name n (map f l) = option_map f (last_with (fun x => name (f x)) n l).
Proof.
  unfold last_with. induction l as [|x l IH] using rev_ind; [reflexivity|]. rewrite map_app. cbn [map]. rewrite !last_of_snoc.
  destruct (str_eqb (name (f x)) n); [reflexivity|exact IH].
Qed.
Lemma last_with_Forall2 {A B} (P : A -> B -> Prop) (na : A -> str) (nb : B -> str) n l l' : (forall a b, P a b -> nb b = na a) -> Forall2 P l l' ->
  match last_with na n l with Some a => exists b, last_with nb n l' = Some b /\ P a b | None => last_with nb n l' = None end.
Proof.
  intros Hn. unfold last_with. revert l'. induction l as [|x l IH] using rev_ind; intros l' F.
  - inversion F. reflexivity.
  - apply Forall2_app_inv_l in F as (m & m' & F1 & F2 & ->). inversion F2 as [|? y ? ? Hy F3]; subst. inversion F3; subst.
    rewrite !last_of_snoc, (Hn _ _ Hy). destruct (str_eqb (na x) n); [eauto|]. apply IH, F1.
Qed.
Lemma last_with_name {A} (name : A -> str) n l x : last_with name n l = Some x -> name x = n /\ In x l.
Proof.
  unfold last_with. induction l as [|y l IH] using rev_ind; [discriminate|]. rewrite last_of_snoc, in_app_iff.
  destruct (str_eqb (name y) n) eqn:E; [|intros K; destruct (IH K); auto].
  intros K. injection K as ->. apply str_eqb_eq in E. split; [exact E|]. right. now left.
Qed.

(** ** The content of the file *)
Lemma fix_variable_kept {num} (v w : xvar num) : fix_variable v = Ok w -> kept v w.
Proof.
  unfold fix_variable. intros E. bindE E a Ha. injection E as <-. repeat split. cbn. apply C74_kept_partial, Ha.
Qed.
Lemma content_holds {num} (o : objects (num := num)) ds : nc_content o = Ok ds -> holds ds (o_vars o ++ o_aux o) (o_globals o).
Proof.
  unfold nc_content. intros E. bindE E vs Hvs. bindE E g Hg. injection E as <-. cbn [ds_vars ds_attrs].
  assert (F : Forall2 kept (o_vars o ++ o_aux o) vs).
  { apply mapR_Forall2 in Hvs. clear - Hvs. induction Hvs as [|a b l l' K _ IH]; constructor; auto. apply fix_variable_kept, K. }
  set (D := dict_of_list (map (fun v => (v_name v, v)) vs)).
  assert (Names : forall p, In p D -> v_name (snd p) = fst p).
  { intros [k w] I. cbn [fst snd]. destruct (lookup k D) as [w'|] eqn:L.
    - assert (w' = w); [|subst w'].
      { assert (N := dict_nodup_names (map (fun v => (v_name v, v)) vs)). fold D in N. apply lookup_in in L.
        clear - N I L. induction D as [|p d IH]; [destruct I|]. cbn [map] in N. inversion N as [|? ? Nk N']; subst.
        destruct I as [->|I], L as [L|L]; [congruence| | |auto]; exfalso; apply Nk; [|subst p]; cbn [fst];
          [change k with (fst (k, w'))|change k with (fst (k, w))]; now apply in_map. }
      unfold D in L. rewrite lookup_dict, last_with_map in L. cbn [fst] in L.
      destruct (last_with _ k vs) as [x|] eqn:Lx; [|discriminate]. cbn in L. injection L as ->. now apply last_with_name in Lx.
    - exfalso. apply lookup_none in L. apply L. change k with (fst (k, w)). now apply in_map. }
  assert (NamesD : map v_name (map snd D) = map fst D).
  { rewrite map_map. apply map_ext_in. exact Names. }
  unfold holds. cbn [ds_vars ds_attrs]. rewrite NamesD. split; [apply dict_nodup_names|]. split.
  - intros n. assert (K := last_with_Forall2 kept v_name v_name n _ _ (fun a b (H : kept a b) => proj1 H) F).
    destruct (last_with v_name n (o_vars o ++ o_aux o)) as [v|].
    + destruct K as (w & L & Kw). exists w. split; [|exact Kw]. change w with (snd (n, w)). apply in_map. apply lookup_in.
      unfold D. rewrite lookup_dict, last_with_map. cbn [fst]. fold (@v_name num). change (fun x : xvar num => v_name x) with (@v_name num). now rewrite L.
    + apply lookup_none. unfold D. rewrite lookup_dict, last_with_map. cbn [fst]. change (fun x : xvar num => v_name x) with (@v_name num). now rewrite K.
  - assert (G := C74_kept_partial _ _ _ Hg).
    assert (Ng : map fst g = map fst (dict_of_list (o_globals o))).
    { clear - G. induction G as [|p q l l' [E _] _ IH]; [reflexivity|]. cbn [map]. now rewrite E, IH. }
    rewrite Ng. split; [apply dict_nodup_names|]. intros k. assert (L := lookup_dict (o_globals o) k).
    destruct (last_with fst k (o_globals o)) as [[k' x]|] eqn:Lk; cbn [option_map snd] in L.
    + apply lookup_in in L. clear - G L. induction G as [|p q l l' [E S'] _ IH]; [destruct L|]. destruct L as [->|L].
      * exists (snd q). split; [left; destruct q; cbn in *; now subst|exact S'].
      * destruct (IH L) as (y & I & K). exists y. split; [now right|exact K].
    + now apply lookup_none.
Qed.

(** * C89 *)
(** In every mode the file holds afterwards what was converted and nothing else;
    other files are as before.
    Missing from the full claim: what was in the file before. *)
Theorem C89_partial : forall num (Num : NumOps num) (Ar : ArithOps num) s na_file content nc_file mode (fs fs' : nc_disk) name,
  convertNAToNC s na_file content nc_file mode fs = (Ok name, fs') ->
  (forall f, nc_file = Some f -> name = f) /\
  (exists c d o ds, read_file content 0 = Ok (c, d) /\ toXarray s d = Ok o /\
     fs' name = Some ds /\ holds ds (o_vars o ++ o_aux o) (o_globals o)) /\
  forall n, n <> name -> fs' n = fs n.
Proof.
  intros num Num Ar s nf content nc mode fs fs' name E. unfold convertNAToNC in E.
  destruct (read_file content 0) as [[c d]|] eqn:R; [|discriminate]. cbn [bindR snd] in E.
  destruct (toXarray s d) as [o|] eqn:T; [|discriminate]. unfold writeNCFile in E.
  destruct (nc_content o) as [ds|] eqn:C; [|discriminate]. injection E as <- <-. split; [now intros f ->|]. split.
  - exists c, d, o, ds. split; [reflexivity|]. split; [exact T|]. split; [unfold put_nc; now rewrite str_eqb_refl|apply content_holds, C].
  - intros n Hn. unfold put_nc. now rewrite str_eqb_false.
Qed.
(** An error changes no file. *)
Theorem C89_error_partial : forall num (Num : NumOps num) (Ar : ArithOps num) s na_file content nc_file mode (fs fs' : nc_disk) e,
  convertNAToNC s na_file content nc_file mode fs = (Err e, fs') -> fs' = fs.
Proof.
  intros num Num Ar s nf content nc mode fs fs' e E. unfold convertNAToNC in E.
  destruct (bindR _ _) as [o|] eqn:R; [|congruence]. unfold writeNCFile in E. destruct (nc_content o); congruence.
Qed.
(** False of the code: in append mode the variables that the file has are
    lost. *)
Definition old_file : dataset b64 := mkDs [mkVar (mkNamed (lit "ozone") [] []) [] (PNum (bf "1")) None None] [].
Definition old_disk : nc_disk := put_nc (fun _ => None) (lit "a.nc") old_file.
Definition var_names (ds : option (dataset b64)) : list str := match ds with Some d => map v_name (ds_vars d) | None => [] end.
Theorem C89_refuted : exists s content fs fs' name,
  convertNAToNC (num := b64) s (lit "a.na") content (Some (lit "a.nc")) (lit "a") fs = (Ok name, fs') /\
  var_names (fs (lit "a.nc")) = [lit "ozone"] /\ var_names (fs' (lit "a.nc")) = map lit ["temp"; "3he"]%pylit.
Proof.
  exists plain_settings, f_two, old_disk.
  set (r := convertNAToNC (num := b64) plain_settings (lit "a.na") f_two (Some (lit "a.nc")) (lit "a") old_disk).
  assert (K : match r with (Ok _, fs') => var_names (fs' (lit "a.nc")) = map lit ["temp"; "3he"]%pylit | _ => False end) by (vm_compute; reflexivity).
  destruct r as [[name|] fs']; [|destruct K]. exists fs', name. auto.
Qed.
(** Without a name for the file, the one that na_to_nc.py is given has both
    extensions (see C38). *)
Example C89_example : exists fs', convertNAToNC (num := b64) plain_settings (lit "a.na") f_two None (lit "w") old_disk = (Ok (lit "a.na.nc"), fs') /\
  var_names (fs' (lit "a.na.nc")) = map lit ["temp"; "3he"]%pylit /\ fs' (lit "a.nc") = Some old_file.
Proof.
  set (r := convertNAToNC (num := b64) plain_settings (lit "a.na") f_two None (lit "w") old_disk).
  assert (K : match r with (Ok name, fs') => (name, var_names (fs' (lit "a.na.nc"))) = (lit "a.na.nc", map lit ["temp"; "3he"]%pylit) | _ => False end)
    by (vm_compute; reflexivity).
  destruct r as [[name|] fs'] eqn:E; [|destruct K]. injection K as -> K. exists fs'. split; [reflexivity|]. split; [exact K|].
  destruct (C89_partial _ _ _ _ _ _ _ _ _ _ _ E) as (_ & _ & K'). rewrite K' by discriminate. reflexivity.
Qed.

(** * C90 *)
(** The settings that a command line of na2nc asks for. *)
Definition na_settings {num} (answers : list str) (now version : str) (l : list na_opt) : ToXarray.settings (num := num) :=
  mkSet SAll SAll (map (fun p => (fst p, gstr (snd p))) (or_else [] (last_of g_globals l))) (last_of g_units l)
    (negb (given is_no_warning l)) answers (or_else [] (last_of g_rename l)) None now version.
(** A run of na2nc that succeeds has read the file named with -i, and written one
    NetCDF file with what is converted from it with the settings asked for. *)
Theorem C90_converts : forall num (Num : NumOps num) (Ar : ArithOps num) answers now version l files (fs fs' : nc_disk) name,
  Forall na_sayable l ->
  na2nc answers now version (flat_map na_words l) files fs = (Done name, fs') ->
  (exists f content c d o ds, last_of g_in (map snd l) = Some f /\ files f = Some content /\
     read_file content 0 = Ok (c, d) /\ toXarray (na_settings answers now version (map snd l)) d = Ok o /\
     (match last_of g_out (map snd l) with Some ((_ :: _) as out) => name = out | _ => nc_name f name end) /\
     fs' name = Some ds /\ holds (num := num) ds (o_vars o ++ o_aux o) (o_globals o)) /\
  forall n, n <> name -> fs' n = fs n.
Proof.
  intros num Num Ar answers now version l files fs fs' name Hl E. unfold na2nc in E.
  destruct (na_parseArgs (flat_map na_words l)) as [cmd| |] eqn:P; try discriminate.
  assert (Hf : exists f, last_of g_in (map snd l) = Some f /\ f <> []).
  { unfold na_parseArgs, getopt in P. rewrite <- (app_nil_r (flat_map na_words l)) in P.
    rewrite na_getopt in P by (auto; first [exact I|apply words_length, na_words_length]). rewrite na_each in P by auto. cbn [bindX] in P.
    unfold na_asked in P at 1. cbn [y_na_file] in P. destruct (last_of g_in (map snd l)) as [[|x f]|]; try discriminate.
    eexists; split; [reflexivity|discriminate]. }
  destruct Hf as (f & Hf & Hn). destruct (C87_options l f Hl Hf Hn) as (out & P' & Hout). rewrite P' in P. injection P as <-.
  cbn [na_asked y_na_file y_nc_file y_globals y_units y_warning y_rename y_mode] in E. rewrite Hf in E.
  destruct (files f) as [content|] eqn:Ef; [|discriminate].
  change (mkSet _ _ _ _ _ _ _ _ _ _) with (na_settings (num := num) answers now version (map snd l)) in E.
  destruct (convertNAToNC _ f content (Some out) _ fs) as [[r|] g] eqn:C; [|discriminate]. injection E as -> ->.
  destruct (C89_partial _ _ _ _ _ _ _ _ _ _ _ C) as (Hname & (c & d & o & ds & R & T & W & Hh) & Ho).
  specialize (Hname _ eq_refl). subst out. split; [|exact Ho]. exists f, content, c, d, o, ds. repeat (split; [assumption|]).
  exact Hh.
Qed.
(** Otherwise no file is changed. *)
Theorem C90_no_change : forall num (Num : NumOps num) (Ar : ArithOps num) answers now version args files (fs fs' : nc_disk (num := num)) r,
  na2nc answers now version args files fs = (r, fs') -> (forall name, r <> Done name) -> fs' = fs.
Proof.
  intros num Num Ar answers now version args files fs fs' r E Hr. unfold na2nc in E.
  destruct (na_parseArgs args) as [cmd| |]; try congruence. destruct (y_na_file cmd) as [f|]; [|congruence].
  destruct (files f) as [content|]; [|congruence]. cbv zeta in E.
  destruct (convertNAToNC _ f content _ _ fs) as [[n|e] g] eqn:C; injection E as <- <-; [now destruct (Hr n)|].
  apply C89_error_partial in C. exact C.
Qed.
Definition na_files (n : str) : option str := if str_eqb n (lit "in.na") then Some f_two else None.
Definition na2nc_line : list (bool * na_opt) := [(false, AIn (lit "in.na")); (false, ANoWarning); (true, ARename [(lit "temp", lit "t2")])].
Example C90_example : Forall na_sayable na2nc_line /\
  flat_map na_words na2nc_line = map lit ["-i"; "in.na"; "-n"; "-rtemp,t2"]%pylit /\
  exists fs', na2nc (num := b64) [] (lit "now") (lit "2") (flat_map na_words na2nc_line) na_files old_disk = (Done (lit "in.nc"), fs') /\
  var_names (fs' (lit "in.nc")) = map lit ["t2"; "3he"]%pylit.
Proof.
  split.
  { repeat constructor; try discriminate; cbn; try (intros K; cbv in K; repeat destruct K as [K|K]; try discriminate K; contradiction). }
  split; [reflexivity|].
  set (r := na2nc (num := b64) [] (lit "now") (lit "2") (flat_map na_words na2nc_line) na_files old_disk).
  assert (K : match r with (Done name, fs') => (name, var_names (fs' (lit "in.nc"))) = (lit "in.nc", map lit ["t2"; "3he"]%pylit) | _ => False end)
    by (vm_compute; reflexivity).
  destruct r as [[name| |] fs']; [|destruct K|destruct K]. injection K as -> K. exists fs'. auto.
Qed.

(** * C91 *)
Section C91.
Context {num : Type} `{NumOps num} `{ArithOps num}.
Variables (fuel : nat) (e : env num) (r : rule) (headers : bool) (local : list (str * str)) (fmt_of : str -> num -> str) (ann : str -> option str)
  (files : str -> option (dataset num)).
Local Notation nc2na := (nc2na fuel e r headers local fmt_of ann).
(** Whatever the options are, a run of nc2na that succeeds without names-only
    has written all the files that it reports, and no other; with names-only
    added, at any place, the same names are reported and nothing is written. *)
Theorem C91_reports : forall l l' fs names fs',
  Forall nc_sayable (l ++ l') -> given is_names_only (map snd (l ++ l')) = false ->
  nc2na (flat_map nc_words (l ++ l')) files fs = (Done names, fs') ->
  (forall n, In n names -> sd_get fs' n <> None) /\ (forall n, ~ In n names -> sd_get fs' n = sd_get fs n) /\
  forall j, nc2na (flat_map nc_words (l ++ (j, ONamesOnly) :: l')) files fs = (Done names, fs).
Proof.
  intros l l' fs names fs' Hl Hg E.
  assert (Hl' : forall j, Forall nc_sayable (l ++ (j, ONamesOnly) :: l')).
  { intros j. apply Forall_app in Hl as [H1 H2]. apply Forall_app. split; [auto|]. constructor; [exact I|auto]. }
  unfold Programs.nc2na in *. rewrite <- (app_nil_r (flat_map nc_words (l ++ l'))), nc_parse in E by (auto; exact I).
  destruct (last_of f_in (map snd (l ++ l'))) as [[|x nc]|] eqn:Hf; try discriminate.
  unfold nc_asked in E. cbn [x_nc_file x_override x_var_ids x_exclude_vars x_requested_ffi x_float_format x_size_limit x_annotation x_no_header x_na_file
    x_names_only x_delimiter] in E. rewrite Hf, Hg in E.
  destruct (files (x :: nc)) as [ds|] eqn:Ed; [|discriminate]. cbv zeta in E.
  match type of E with context [convertNCToNA fuel ?a0 _ ds _ false _ fs] => set (a := a0) in E end.
  destruct (convertNCToNA fuel a (x :: nc) ds _ false _ fs) as [[ns|] g] eqn:C; [|discriminate]. injection E as -> ->.
  assert (C' : exists names0, convertNCToNA fuel a (x :: nc) ds (last_of f_out (map snd (l ++ l'))) true
     (or_else (lit "    ") (last_of f_delim (map snd (l ++ l')))) fs = (Ok names0, fs)).
  { unfold convertNCToNA in *. cbv zeta in *. destruct (bindR _ _) as [q|]; [|discriminate]. eauto. }
  destruct C' as (names0 & C').
  destruct (C73_names_partial fuel a _ _ _ _ _ _ _ _ _ eq_refl C' C) as (_ & <- & Q1 & Q2). split; [exact Q1|]. split; [exact Q2|].
  intros j. rewrite <- (app_nil_r (flat_map nc_words (l ++ _ :: l'))), nc_parse by (auto; exact I).
  assert (L : forall A (f : nc_opt -> option A), f ONamesOnly = None -> last_of f (map snd (l ++ (j, ONamesOnly) :: l')) = last_of f (map snd (l ++ l'))).
  { intros A f Hn. unfold last_of. rewrite !map_app, !flat_map_app. cbn [map snd flat_map]. now rewrite Hn. }
  assert (G : forall f, f ONamesOnly = false -> given f (map snd (l ++ (j, ONamesOnly) :: l')) = given f (map snd (l ++ l'))).
  { intros f Hn. unfold given. rewrite !map_app, !existsb_app. cbn [map snd existsb]. now rewrite Hn. }
  unfold nc_asked. cbn [x_nc_file x_override x_var_ids x_exclude_vars x_requested_ffi x_float_format x_size_limit x_annotation x_no_header x_na_file
    x_names_only x_delimiter]. rewrite !L by reflexivity. rewrite !(G is_no_header), !(G is_annotated) by reflexivity. rewrite Hf.
  cbn [x_nc_file x_override x_var_ids x_exclude_vars x_requested_ffi x_float_format x_size_limit x_annotation x_no_header x_na_file
    x_names_only x_delimiter]. rewrite Ed.
  replace (given is_names_only (map snd (l ++ (j, ONamesOnly) :: l'))) with true.
  2:{ unfold given. rewrite map_app, existsb_app. cbn [map snd existsb is_names_only orb]. now rewrite orb_true_r. }
  fold a. rewrite C'. reflexivity.
Qed.
(** With names-only nothing is written, whether the run succeeds or not; without
    an input file neither. *)
Theorem C91_writes_nothing : forall l fs q fs',
  Forall nc_sayable l -> given is_names_only (map snd l) = true \/ q = Exit ->
  nc2na (flat_map nc_words l) files fs = (q, fs') -> fs' = fs.
Proof.
  intros l fs q fs' Hl Hg E.
  unfold Programs.nc2na in *. rewrite <- (app_nil_r (flat_map nc_words l)), nc_parse in E by (auto; exact I).
  destruct (last_of f_in (map snd l)) as [[|x nc]|] eqn:Hf; try congruence.
  unfold nc_asked in E. cbn [x_nc_file x_override x_var_ids x_exclude_vars x_requested_ffi x_float_format x_size_limit x_annotation x_no_header x_na_file
    x_names_only x_delimiter] in E. rewrite Hf in E.
  destruct (files (x :: nc)) as [ds|] eqn:Ed; [|congruence]. cbv zeta in E.
  destruct Hg as [Hg| ->].
  - rewrite Hg in E. unfold convertNCToNA in E. cbv zeta in E. destruct (bindR _ _) as [z|]; injection E as _ <-; reflexivity.
  - match type of E with (let (_, _) := ?c in _) = _ => destruct c as [[y|] g] end; discriminate.
Qed.
End C91.
Definition nc_files (n : str) : option (dataset Z) := if str_eqb n (lit "a.nc") then Some ex_ds else None.
Definition nc2na_line : list (bool * nc_opt) := [(true, OIn (lit "a.nc")); (false, OVars (map lit ["ozone"; "s"]%pylit)); (false, OOut (lit "o.na"))].
Example C91_example : Forall nc_sayable nc2na_line /\ given is_names_only (map snd nc2na_line) = false /\
  exists fs', nc2na 10 env_Z RInsert false [(lit "ORG", lit "BADC")] (fun _ => dec_of_Z) (fun _ => None) (flat_map nc_words nc2na_line) nc_files [] = (Done [lit "o.na"], fs') /\
  map fst fs' = [lit "o.na"].
Proof.
  split.
  { repeat constructor; try discriminate; cbn; try (intros K; cbv in K; repeat destruct K as [K|K]; try discriminate K; contradiction). }
  split; [reflexivity|]. set (q := nc2na _ _ _ _ _ _ _ _ _ _).
  assert (K : (fst q, map fst (snd q)) = (Done [lit "o.na"], [lit "o.na"])) by (vm_compute; reflexivity).
  exists (snd q). destruct q as [a b]. cbn [fst snd] in *. injection K as -> ->. auto.
Qed.

Print Assumptions C89_partial.
Print Assumptions C89_error_partial.
Print Assumptions C89_refuted.
Print Assumptions C90_converts.
Print Assumptions C90_no_change.
Print Assumptions C91_reports.
Print Assumptions C91_writes_nothing.
