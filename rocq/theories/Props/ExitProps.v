(** C142: exit status and standard output of the programs. *)
From Coq Require Import List NArith ZArith Bool Lia.
From Verif Require Import Py.Str Py.Res Py.Num Py.Arith Model.Dict Model.TextParser Model.CommonUtils Model.NAWrite Model.NARead
  Model.NACore Model.Utils Model.NCWrite Model.Xarray Model.Collector Model.ToXarray Model.Api Model.Getopt Model.CommandLine Model.Programs Model.ExitStatus
  Spec.ZNum Spec.TextSpec Spec.Binary64 Proofs.StrLemmas Proofs.CollectorLemmas Props.CollectorProps Props.ToXarrayProps Props.ToXarrayMore Props.ApiProps Props.ApiMore Props.UtilProps Spec.CommandLineSpec
  Spec.ProgramSpec Props.CommandLine Props.Programs.
Import ListNotations.

(** * Exit status *)
(** An installed program has status 0 exactly when the command line was refused:
    after success the status is 1, as it is after an exception. *)
Theorem C142_installed : forall num (Num : NumOps num) (Ar : ArithOps num),
  (forall fuel (e : env num) r headers local fmt_of ann args files fs,
     e_status (shell_nc2na installed fuel e r headers local fmt_of ann args files fs) = 0%Z <->
     fst (nc2na fuel e r headers local fmt_of ann args files fs) = Exit) /\
  (forall answers now version args files (fs : nc_disk (num := num)),
     e_status (shell_na2nc installed answers now version args files fs) = 0%Z <->
     fst (na2nc answers now version args files fs) = Exit).
Proof.
  intros num Num Ar. split; intros.
  - unfold shell_nc2na. destruct (nc2na _ _ _ _ _ _ _ _ _ _) as [[names | | x] fs']; cbn; split; congruence.
  - unfold shell_na2nc. destruct (na2nc _ _ _ _ _ _) as [[name | | x] fs']; cbn; split; congruence.
Qed.
Print Assumptions C142_installed.
(** A program that is run as a file has status 1 exactly when an exception stopped
    it; it has printed its result exactly when it has done what was asked. *)
Theorem C142_file_partial : forall num (Num : NumOps num) (Ar : ArithOps num),
  (forall fuel (e : env num) r headers local fmt_of ann args files fs,
     let x := fst (nc2na fuel e r headers local fmt_of ann args files fs) in
     let s := shell_nc2na as_file fuel e r headers local fmt_of ann args files fs in
     (e_status s = 1%Z <-> exists ex, x = Raise ex) /\ (e_status s = 0%Z <-> forall ex, x <> Raise ex) /\
     (e_out s <> None <-> exists names, x = Done names)) /\
  (forall answers now version args files (fs : nc_disk (num := num)),
     let x := fst (na2nc answers now version args files fs) in
     let s := shell_na2nc as_file answers now version args files fs in
     (e_status s = 1%Z <-> exists ex, x = Raise ex) /\ (e_status s = 0%Z <-> forall ex, x <> Raise ex) /\
     (e_out s <> None <-> exists name, x = Done name)).
Proof.
  intros num Num Ar. split; intros.
  - subst x s. unfold shell_nc2na. destruct (nc2na _ _ _ _ _ _ _ _ _ _) as [[names | | ex] fs']; cbn;
      repeat split; try congruence; try (intros (? & ?); congruence); intros H; try (eexists; reflexivity).
    exfalso. exact (H _ eq_refl).
  - subst x s. unfold shell_na2nc. destruct (na2nc _ _ _ _ _ _) as [[name | | ex] fs']; cbn;
      repeat split; try congruence; try (intros (? & ?); congruence); intros H; try (eexists; reflexivity).
    exfalso. exact (H _ eq_refl).
Qed.
Print Assumptions C142_file_partial.

(** * Standard output *)
Definition one_line (s : str) : Prop := ~ In 10%N s.
Lemma line_inj a b s t : one_line a -> one_line b -> a ++ nl ++ s = b ++ nl ++ t -> a = b /\ s = t.
Proof.
  revert b. induction a as [| x a IH]; intros [| y b] A B E; cbn in E.
  - injection E as ->. auto.
  - injection E as <- _. exfalso. apply B. left. reflexivity.
  - injection E as -> _. exfalso. apply A. left. reflexivity.
  - injection E as -> E. destruct (IH b) as [-> ->]; [intros I; apply A; right; exact I | intros I; apply B; right; exact I | exact E | auto].
Qed.
(** The names, and whether the files were written, can be read from the output. *)
Theorem C142_readable : forall b b' names names', Forall one_line names -> Forall one_line names' ->
  printed b names = printed b' names' -> b = b' /\ names = names'.
Proof.
  intros b b' names names' H H' E. unfold printed in E. apply app_inv_head in E.
  assert (O : forall c, one_line (heading c)) by (intros [|] I; vm_compute in I; intuition discriminate).
  apply line_inj in E as [Eh E]; [| apply O | apply O]. split; [destruct b, b'; try reflexivity; vm_compute in Eh; discriminate Eh |].
  revert names' H' E. induction H as [| n l Hn Hl IH]; intros [| n' l'] H' E; [reflexivity | | |].
  - cbn [flat_map] in E. discriminate E.
  - cbn [flat_map] in E. discriminate E.
  - cbn [flat_map] in E. rewrite <- !app_assoc in E. apply app_inv_head in E. inversion H' as [| x y Hx Hy]; subst.
    apply line_inj in E as [-> E]; [| assumption | assumption]. f_equal. apply IH; assumption.
Qed.
Print Assumptions C142_readable.
(** The output of nc2na: a blank line, a heading, and a line for every file, which
    is there.  With names-only the heading says so, and no file is written. *)
Theorem C142_output_partial : forall num (Num : NumOps num) (Ar : ArithOps num) how fuel (e : env num) r headers local fmt_of ann files l fs out,
  Forall nc_sayable l ->
  let s := shell_nc2na how fuel e r headers local fmt_of ann (flat_map nc_words l) files fs in
  e_out s = Some out ->
  exists names,
    out = unlines ([] :: (if given is_names_only (map snd l) then lit "Expected file names would be:" else lit "Successfully wrote: ")
                   :: map (fun n => lit "     " ++ n) names) /\
    (given is_names_only (map snd l) = false ->
       (forall n, In n names -> sd_get (e_files s) n <> None) /\ forall n, ~ In n names -> sd_get (e_files s) n = sd_get fs n) /\
    (given is_names_only (map snd l) = true -> e_files s = fs).
Proof.
  intros num Num Ar how fuel e r headers local fmt_of ann files l fs out Hl s Ho. subst s. unfold shell_nc2na in *.
  destruct (nc2na fuel e r headers local fmt_of ann (flat_map nc_words l) files fs) as [[names | | x] fs'] eqn:E; cbn [e_out e_files] in *; try discriminate Ho.
  exists names.
  assert (Hn : match nc_parseArgs (flat_map nc_words l) with Done c => x_names_only c | _ => false end = given is_names_only (map snd l)).
  { unfold nc2na in E. rewrite <- (app_nil_r (flat_map nc_words l)), nc_parse in E by (auto; exact I).
    rewrite <- (app_nil_r (flat_map nc_words l)), nc_parse by (auto; exact I).
    destruct (last_of f_in (map snd l)) as [[| x nc] |]; try discriminate E. reflexivity. }
  rewrite Hn in Ho. split; [| split].
  - assert (Q : printed (given is_names_only (map snd l)) names = out) by congruence. rewrite <- Q. unfold printed, heading. clear.
    assert (K : flat_map (fun n => lit "     " ++ n ++ nl) names = unlines (map (fun n => lit "     " ++ n) names)).
    { induction names as [| n t IH]; [reflexivity |]. cbn [flat_map map]. rewrite IH. unfold unlines; cbn [map concat]; fold (unlines (map (fun n => lit "     " ++ n) t)); rewrite <- !app_assoc. reflexivity. }
    rewrite K. destruct (given is_names_only (map snd l)); reflexivity.
  - intros G. destruct (C91_reports fuel e r headers local fmt_of ann files l [] fs names fs') as (A & B & _); rewrite ?app_nil_r; auto.
  - intros G. apply (C91_writes_nothing fuel e r headers local fmt_of ann files l fs (Done names) fs'); auto.
Qed.
Print Assumptions C142_output_partial.
(** The output of na2nc: the name of the file written, if it was not given. *)
Lemma o_option_last l : Forall na_sayable l -> o_option (flat_map na_words l) = last_of g_out (map snd l).
Proof.
  intros Hl. unfold o_option, getopt. rewrite <- (app_nil_r (flat_map na_words l)).
  rewrite na_getopt by (auto; first [exact I | apply words_length, na_words_length]). clear Hl.
  match goal with |- fold_left ?f _ _ = _ => set (F := f) end.
  induction l as [| [j o] l IH] using rev_ind; [reflexivity |]. rewrite !map_app. cbn [map snd]. rewrite fold_left_app, last_of_snoc. etransitivity; [apply (f_equal (fun x => fold_left F [na_meaning o] x) IH) |]. cbn [map snd fold_left].
  destruct o; reflexivity.
Qed.
Theorem C142_na2nc_output_partial : forall num (Num : NumOps num) (Ar : ArithOps num) how answers now version l files (fs : nc_disk (num := num)) out,
  Forall na_sayable l ->
  let s := shell_na2nc how answers now version (flat_map na_words l) files fs in
  e_out s = Some out ->
  exists name, e_files s name <> None /\ (forall n, n <> name -> e_files s n = fs n) /\
    match last_of g_out (map snd l) with
    | Some ((_ :: _) as given) => name = given /\ out = []
    | _ => out = unlines [lit "Auto-generating output file name: " ++ name]
    end.
Proof.
  intros num Num Ar how answers now version l files fs out Hl s Ho. subst s. unfold shell_na2nc in *.
  destruct (na2nc answers now version (flat_map na_words l) files fs) as [[name | | x] fs'] eqn:E; cbn [e_out e_files] in *; try discriminate Ho.
  destruct (C90_converts _ _ _ _ _ _ _ _ _ _ _ Hl E) as ((f & content & c & d & o & ds & _ & _ & _ & _ & Hn & W & _) & Hk).
  exists name. split; [congruence |]. split; [exact Hk |].
  rewrite (o_option_last l Hl) in Ho. unfold na2nc_printed in Ho.
  assert (Q : forall t, unlines [t] = t ++ nl) by (intros t; unfold unlines; cbn [map concat]; apply app_nil_r).
  destruct (last_of g_out (map snd l)) as [[| y t] |]; [| split; congruence |];
    rewrite Q, <- app_assoc; congruence.
Qed.
Print Assumptions C142_na2nc_output_partial.

(** * Examples *)
Definition shown (s : ended disk) : Z * option str * list str := (e_status s, e_out s, map fst (e_files s)).
Definition run_nc2na how (args : list pylit) := shown (shell_nc2na how 10 env_Z RInsert false [(lit "ORG", lit "BADC")] (fun _ => dec_of_Z) (fun _ => None) (map lit args) nc_files []).
Example C142_example :
  run_nc2na as_file ["-i"; "a.nc"; "-v"; "ozone,s"; "-o"; "o.na"]%pylit = (0%Z, Some (unlines (map lit [""; "Successfully wrote: "; "     o.na"]%pylit)), [lit "o.na"]) /\
  run_nc2na as_file ["-i"; "a.nc"; "-v"; "ozone,s"; "-o"; "o.na"; "--names-only"]%pylit = (0%Z, Some (unlines (map lit [""; "Expected file names would be:"; "     o.na"]%pylit)), []) /\
  run_nc2na as_file ["-i"; "b.nc"]%pylit = (1%Z, None, []) /\ run_nc2na as_file ["-o"; "o.na"]%pylit = (0%Z, None, []).
Proof. vm_compute. auto. Qed.
Example C142_na2nc_example :
  let s := shell_na2nc (num := b64) as_file [] (lit "now") (lit "2") (map lit ["-i"; "in.na"; "-n"]%pylit) na_files old_disk in
  (e_status s, e_out s, var_names (e_files s (lit "in.nc"))) = (0%Z, Some (unlines [lit "Auto-generating output file name: in.nc"]), map lit ["temp"; "3he"]%pylit).
Proof. vm_compute. reflexivity. Qed.

(** False of the code, in both directions: an installed program that has written
    its file has status 1; and a program whose command line was refused, installed or
    run as a file, has status 0 though nothing was done. *)
Theorem C142_refuted :
  (exists args out, run_nc2na installed args = (1%Z, Some out, [lit "o.na"])) /\
  (exists args, run_nc2na installed args = (0%Z, None, []) /\ run_nc2na as_file args = (0%Z, None, [])).
Proof.
  split.
  - exists ["-i"; "a.nc"; "-v"; "ozone,s"; "-o"; "o.na"]%pylit. eexists. vm_compute. reflexivity.
  - exists ["-i"; "a.nc"; "--nosuch"]%pylit. split; vm_compute; reflexivity.
Qed.
Print Assumptions C142_refuted.
