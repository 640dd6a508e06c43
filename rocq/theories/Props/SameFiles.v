(** The function [convertNCToNA] and the class [NCToNA] write the same files. *)
From Coq Require Import List NArith ZArith Bool Lia.
From Verif Require Import Py.Str Py.Res Py.Num Py.Arith Model.Dict Model.CommonUtils Model.NAWrite Model.Utils Model.NCWrite Model.Xarray Model.Collector
  Model.Api Model.Lifecycle Model.Converter Spec.ConverterSpec.
From Verif Require Import Props.NCWriteProps Props.ConverterProps.
From Verif Require Props.UtilProps Props.ApiProps.
Import ListNotations.

Section C151.
Context {num : Type} {Num : NumOps num} {Ar : ArithOps num}.
Local Notation na := (na num).
Local Notation conv := (conv num).

(** The names (or the exception) and the disk. *)
Definition outcome {A B C} (p : A * B * C) : A * C := (fst (fst p), snd p).

Lemma override_same r (l : list (key * pyv num)) : forall d,
  forR l (fun p d => override r d p) d = match override_all r l d with (Err e, _) => Err e | (Ok _, d') => Ok d' end.
Proof.
  induction l as [| p l IH]; intros d; cbn [forR override_all]; [reflexivity |].
  destruct (override r d p) as [d' |]; cbn [bindR]; [apply IH | reflexivity].
Qed.
Lemma prepare_same s (d : na) : prepare s d = match prepare_in s d with (Err e, _) => Err e | (Ok _, d') => Ok d' end.
Proof.
  unfold prepare, prepare_in. rewrite override_same. destruct (override_all _ _ d) as [[u |] d1]; cbn [bindR]; [| reflexivity].
  destruct (st_headers s); [| reflexivity]. destruct (updateWithColumnHeaders d1); reflexivity.
Qed.
Lemma one_same fuel o nh lim name (d : na) fs : outcome (write_one_in fuel o nh lim name d fs) = write_one fuel o nh lim name d fs.
Proof.
  assert (W : outcome (match put_in o nh name d fs with (Err e, d', fs') => (Err e, d', fs') | (Ok _, d', fs') => (Ok [name], d', fs') end) =
    match put_file o nh name d fs with (Err e, fs') => (Err e, fs') | (Ok _, fs') => (Ok [name], fs') end).
  { unfold put_in, put_file. destruct (openNAFile_w d) as [[c d'] |]; [| reflexivity]. destruct (write_body _ _ _ _) as [[u |] st]; reflexivity. }
  unfold write_one_in, write_one. cbv zeta. destruct lim as [s |]; [| exact W].
  destruct (bindR (get d kFFI) _) as [[|] |]; [| exact W | reflexivity]. destruct (writeNAFileSubsets _ _ _ _ _ _). reflexivity.
Qed.
Lemma list_same fuel s o nh lim : forall (l : list (str * na)) fs, outcome (write_list fuel s o nh lim l fs) =
  match write_all fuel s o nh lim l fs with (Ok (names, _), fs') => (Ok names, fs') | (Err e, fs') => (Err e, fs') end.
Proof.
  induction l as [| [name d] l IH]; intros fs; cbn [write_list write_all]; [reflexivity |]. rewrite prepare_same.
  destruct (prepare_in s d) as [[u |] d1]; [| reflexivity]. rewrite <- one_same.
  destruct (write_one_in fuel o nh lim name d1 fs) as [[[names |] d2] fs1]; cbn [outcome fst snd]; [| reflexivity]. specialize (IH fs1).
  destruct (write_list fuel s o nh lim l fs1) as [[r ds] fs2]. destruct (write_all fuel s o nh lim l fs1) as [[[names' ds'] |] fs3];
    cbn [outcome fst snd] in IH |- *; injection IH as -> ->; reflexivity.
Qed.
Lemma quiet_disk l : Forall (no_write (num := num)) l -> forall y fs, snd (calls (y, fs) l) = fs.
Proof.
  induction 1 as [| c l Hc F IH]; intros y fs; [reflexivity |]. unfold calls. cbn [fold_left]. destruct (call (y, fs) c) as [y' fs'] eqn:E.
  assert (fs' = fs) as ->; [| apply IH].
  destruct c as [| f | fuel w]; cbn [call fst snd] in E; [now injection E | now injection E | destruct (Hc fuel w eq_refl)].
Qed.

(** [y]: a converter for the file after any questions ([convert],
    [constructNAFileNames], any number of times in any order). *)
Theorem C151_partial : forall fuel (a : nc_args num) nc_file ds vars na_file delimiter fs0 l y fs,
  readXarrayFile ds (n_var_ids a) (n_exclude a) true = Ok vars ->
  date_clash (ds_attrs ds) (n_settings a) = false ->
  na_file <> None \/ (forall base, nc_file <> base ++ lit ".nc") ->
  Forall no_write l ->
  y = fst (calls (new_nc (n_env a) nc_file vars (ds_attrs ds) (n_ffi a) (n_settings a), fs0) l) ->
  outcome (do_write fuel y (mkWargs na_file (mkOpts delimiter (n_fmt a) (n_annotation a) (n_ann a)) (n_no_header a) (n_size_limit a)) fs) =
    convertNCToNA fuel a nc_file ds na_file false delimiter fs /\
  (fst (do_names y na_file), fs) = convertNCToNA fuel a nc_file ds na_file true delimiter fs /\
  snd (calls (new_nc (n_env a) nc_file vars (ds_attrs ds) (n_ffi a) (n_settings a), fs0) l) = fs0.
Proof.
  intros fuel a nc_file ds vars na_file delim fs0 l y fs Er Ed Hf Hl ->. set (x := new_nc _ _ _ _ _ _).
  assert (N : new x) by (do 6 eexists; right; left; reflexivity).
  pose proof (C123_names x na_file l fs0 N) as Nm. destruct (inv_new eq x N) as (I & C & _).
  pose proof (quiet_inv x l Hl x fs0 I) as Iy. pose proof (quiet_disk l Hl x fs0) as Sd. set (y := fst (calls (x, fs0) l)) in *.
  assert (Fn : (match na_file with Some f => Ok f | None => do nc <- of_opt EAttributeError (cv_nc_file x); Ok (default_na_file nc) end)%res =
    Ok (match na_file with Some f => f | None => getFileNameWithNewExtension nc_file (lit "na") end)).
  { destruct na_file as [f |]; [reflexivity |]. destruct Hf as [Hf | Hf]; [congruence |]. cbn [x new_nc cv_nc_file of_opt bindR].
    rewrite (proj2 (C42_default nc_file) Hf), UtilProps.C38_extension_partial. reflexivity. }
  unfold convertNCToNA. rewrite Er. cbn [bindR]. change (convert (n_env a) (n_ffi a) (ds_attrs ds) vars) with (result x).
  assert (Nx : fst (do_names x na_file) = match result x with Err e => Err e | Ok r => Ok (constructNAFileNames (match na_file with Some f => f | None => getFileNameWithNewExtension nc_file (lit "na") end) (length (na_dicts r))) end).
  { unfold do_names, ensure, do_convert. rewrite C. fold (result x). destruct (result x) as [[cs |] |]; cbn [bindR fst]; [| | reflexivity];
      unfold names_now; cbn [with_list cv_nc_file cv_list]; rewrite Fn; reflexivity. }
  split; [| split; [| exact Sd]].
  - unfold do_write. destruct Iy as ((F1 & F2 & F3 & F4 & F5 & F6) & K). rewrite F3, F5. cbn [x new_nc cv_globals cv_settings]. rewrite Ed.
    assert (Ey : exists z, ensure y = (match result x with Err e => Err e | Ok _ => Ok tt end, z) /\ (forall r, result x = Ok r -> do_names z na_file = (fst (do_names x na_file), z) /\
      cv_list z = Some (na_dicts r) /\ cv_settings z = n_settings a)).
    { assert (Rn : forall r, result x = Ok r -> fst (do_names x na_file) = Ok (constructNAFileNames (match na_file with Some f => f | None => getFileNameWithNewExtension nc_file (lit "na") end) (length (na_dicts r))))
        by (intros r R; rewrite Nx, R; reflexivity).
      unfold ensure, do_convert. destruct K as [(K & L) | (K & cs & es & R & L & G)]; rewrite K.
      - rewrite F1, F2, F3, F4. fold (result x). destruct (result x) as [[cs |] | e] eqn:R; cbn [bindR]; eexists; (split; [reflexivity |]); intros r Q; [| | discriminate Q]; injection Q as <-; rewrite (Rn _ eq_refl).
        + split; [| split; [reflexivity | exact F5]]. unfold do_names, ensure. cbn [with_list cv_converted]. unfold names_now. cbn [with_list cv_nc_file cv_list]. rewrite F6, Fn. reflexivity.
        + split; [| split; [rewrite L; reflexivity | exact F5]]. unfold do_names, ensure, do_convert. rewrite K, F1, F2, F3, F4. fold (result x). rewrite R. cbn [bindR]. unfold names_now. rewrite F6, Fn, L. reflexivity.
      - assert (es = na_dicts (Some cs)) as -> by (clear - G; induction G; congruence). rewrite R. eexists. split; [reflexivity |]. intros r Q. injection Q as <-. rewrite (Rn _ R).
        split; [| split; [exact L | exact F5]]. unfold do_names, ensure. rewrite K. unfold names_now. rewrite F6, Fn, L. reflexivity. }
    cbn [wa_file wa_opts wa_no_header wa_limit]. destruct Ey as (z & -> & Hz). destruct (result x) as [r |] eqn:R; [| reflexivity]. destruct (Hz r eq_refl) as (-> & Lz & Sz). rewrite Nx, Lz, Sz.
    unfold writeNAFiles. rewrite <- list_same.
    destruct (write_list _ _ _ _ _ _ _) as [[[files |] l'] fs']; reflexivity.
  - rewrite Nm, Nx. destruct (result x); reflexivity.
Qed.

End C151.
Print Assumptions C151_partial.

Definition limited : nc_args Z := ApiProps.ex_args IAll [] (Some 2%Z).
Definition a_converter (vars : list (xvar Z)) : conv Z :=
  new_nc (n_env limited) (lit "a.nc") vars (ds_attrs ApiProps.ex_ds) (n_ffi limited) (n_settings limited).
Definition to_file (f : option str) : wargs Z :=
  mkWargs f (mkOpts (lit " ") (n_fmt limited) (n_annotation limited) (n_ann limited)) (n_no_header limited) (n_size_limit limited).
(** Three rows, at most two in a file: two files, reported twice each (C41). *)
Example C151_example : exists vars fs', readXarrayFile ApiProps.ex_ds IAll [] true = Ok vars /\
  date_clash (ds_attrs ApiProps.ex_ds) (n_settings limited) = false /\
  outcome (do_write 10 (fst (calls (a_converter vars, []) [CNames None; CConvert])) (to_file (Some (lit "b.na"))) []) =
    (Ok (map lit ["b-001.na"; "b-001.na"; "b-002.na"; "b-002.na"]%pylit), fs') /\
  convertNCToNA 10 limited (lit "a.nc") ApiProps.ex_ds (Some (lit "b.na")) false (lit " ") [] =
    (Ok (map lit ["b-001.na"; "b-001.na"; "b-002.na"; "b-002.na"]%pylit), fs') /\ length fs' = 2%nat.
Proof.
  eexists. eexists. split; [vm_compute; reflexivity |]. split; [vm_compute; reflexivity |].
  split; [vm_compute; reflexivity |]. split; vm_compute; reflexivity.
Qed.

(** Without a name for the output the class puts .na in the place of .nc, the
    function puts it behind the name. *)
Theorem C151_refuted : exists (a : nc_args Z) nc_file ds vars delimiter,
  readXarrayFile ds (n_var_ids a) (n_exclude a) true = Ok vars /\ date_clash (ds_attrs ds) (n_settings a) = false /\
  fst (do_names (new_nc (n_env a) nc_file vars (ds_attrs ds) (n_ffi a) (n_settings a)) None) = Ok [lit "a.na"] /\
  fst (convertNCToNA 10 a nc_file ds None true delimiter []) = Ok [lit "a.nc.na"].
Proof.
  exists (ApiProps.ex_args IAll [] None), (lit "a.nc"), ApiProps.ex_ds. eexists. exists (lit " ").
  split; [vm_compute; reflexivity |]. split; [vm_compute; reflexivity |]. split; vm_compute; reflexivity.
Qed.
Print Assumptions C151_refuted.
