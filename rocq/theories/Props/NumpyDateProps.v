(** C138: a date that the user gives. *)
From Coq Require Import List NArith ZArith Bool Lia.
From Verif Require Import Py.Str Py.Res Py.Num Py.Arith Model.Dict Model.CommonUtils Model.NAWrite Model.Utils Model.NCWrite Model.Xarray Model.Collector Model.Api Model.Programs Model.NumpyDate
  Spec.ConfigSpec Spec.ApiSpec Spec.ZNum Spec.CollectorSpec Spec.Binary64 Proofs.StrLemmas Proofs.ReadFrame Proofs.ConfigLemmas Proofs.CollectorLemmas Props.CollectorProps Props.ApiProps Props.ApiMore Props.ConfigProps Props.ToXarrayProps Props.AxisProps Props.HeaderProps Props.HeaderDates.
Import ListNotations.

Lemma Ok_inj {A} (a b : A) : Ok a = Ok b -> a = b.
Proof. congruence. Qed.

Section C138.
Context {num : Type} `{NumOps num} `{ArithOps num}.
Local Notation na := (na num).

Lemma dated_dicts globals (r : option (list (collected num))) : map fst (dated globals r) = na_dicts r.
Proof. destruct r as [l |]; [| reflexivity]. cbn [dated na_dicts]. induction l as [| c l IH]; [reflexivity |]. cbn [flat_map]. rewrite map_app, IH. destruct (c_na c); reflexivity. Qed.
Lemma overrides_plain (r : rule) l : forall (d : na) b, b = false \/ ~ In kDATE (map fst l) ->
  forR l (override_np r) (d, b) = bindR (forR l (fun p d => override r d p) d) (fun d' => Ok (d', b)).
Proof.
  induction l as [| p l IH]; intros d b Hb; [reflexivity |]. cbn [forR]. unfold override_np at 1. cbn [fst snd].
  destruct (override r d p) as [d' |]; cbn [bindR]; [| reflexivity].
  destruct (key_beq (fst p) kDATE) eqn:K.
  - destruct Hb as [-> | Hb]; [cbn [bindR]; apply IH; auto |]. exfalso. apply Hb. left. destruct (fst p); try discriminate K; reflexivity.
  - cbn [bindR]. apply IH. destruct Hb as [-> | Hb]; [auto | right]. intros I. apply Hb. right. exact I.
Qed.
Lemma overrides_array (r : rule) l : forall (d : na) y, In kDATE (map fst l) -> forR l (override_np r) (d, true) <> Ok y.
Proof.
  induction l as [| p l IH]; intros d y I Q; [destruct I |]. cbn [forR] in Q. unfold override_np at 1 in Q. cbn [fst snd] in Q.
  destruct (override r d p) as [d' |]; cbn [bindR] in Q; [| discriminate Q]. destruct (key_beq (fst p) kDATE) eqn:K; cbn [bindR] in Q; [discriminate Q |].
  apply (IH _ _) in Q; [exact Q |]. destruct I as [I | I]; [| exact I]. rewrite I in K. discriminate K.
Qed.
Lemma overrides_error (r : rule) l : forall (d d' : na), In kDATE (map fst l) -> forR l (fun p d => override r d p) d = Ok d' -> forR l (override_np r) (d, true) = Err EValueError.
Proof.
  induction l as [| p l IH]; intros d d' I Q; [destruct I |]. cbn [forR] in Q |- *. unfold override_np at 1. cbn [fst snd].
  destruct (override r d p) as [d1 |]; cbn [bindR] in Q |- *; [| discriminate Q]. destruct (key_beq (fst p) kDATE) eqn:K; cbn [bindR]; [reflexivity |].
  apply (IH _ d'); [| exact Q]. destruct I as [I | I]; [| exact I]. rewrite I in K. discriminate K.
Qed.
Lemma prepare_plain (s : NCWrite.settings) (d : na) b : b = false \/ ~ In kDATE (map fst (st_overriders s)) -> prepare_np s (d, b) = prepare s d.
Proof. intros Hb. unfold prepare_np, prepare. rewrite overrides_plain by exact Hb. destruct (forR _ _ d) as [d' |]; reflexivity. Qed.
Lemma write_plain fuel (s : NCWrite.settings) (o : opts num) nh lim l : Forall (fun x : str * (na * bool) => snd (snd x) = false \/ ~ In kDATE (map fst (st_overriders s))) l ->
  forall fs, write_all_np fuel s o nh lim l fs = write_all fuel s o nh lim (map (fun x => (fst x, fst (snd x))) l) fs.
Proof.
  induction 1 as [| (n, (d, b)) l P F IH]; intros fs; [reflexivity |]. cbn [write_all_np write_all map fst snd] in *. rewrite prepare_plain by exact P.
  destruct (prepare s d); [| reflexivity]. destruct (write_one _ _ _ _ _ _ _) as [[ns |] f]; [| reflexivity]. rewrite IH. reflexivity.
Qed.
Lemma combine_snd {A B C} (f : B -> C) : forall (l : list A) (m : list B), map (fun x => (fst x, f (snd x))) (combine l m) = combine l (map f m).
Proof. induction l as [| a l IH]; intros [| b m]; try reflexivity. cbn. now rewrite IH. Qed.
(** Where no date is given, or none is an array, nothing is different from
    [convertNCToNA]. *)
Theorem C138_same : forall fuel (a : nc_args num) nc_file ds na_file only_names delimiter fs, date_clash (ds_attrs ds) (n_settings a) = false ->
  convertNCToNA_np fuel a nc_file ds na_file only_names delimiter fs = convertNCToNA fuel a nc_file ds na_file only_names delimiter fs.
Proof.
  intros fuel a nc ds nf on dl fs C. unfold convertNCToNA_np, convertNCToNA. cbv zeta. destruct (bindR _ _) as [r |]; [| reflexivity]. rewrite C.
  rewrite <- (dated_dicts (ds_attrs ds)), map_length. destruct on; [reflexivity |]. unfold writeNAFiles. rewrite map_length, write_plain, combine_snd; [reflexivity |].
  set (ns := constructNAFileNames _ _). clearbody ns. unfold date_clash in C. apply andb_false_iff in C. rewrite Forall_forall. intros (n, (d, b)) I. cbn [snd].
  destruct C as [C | C]; [left | right].
  - apply in_combine_r in I. destruct r as [l |]; [| destruct I]. cbn [dated] in I. apply in_flat_map in I as (c & _ & I).
    destruct (c_na c); [| destruct I]. destruct I as [I | []]. injection I as _ <-. unfold numpy_date. rewrite C. reflexivity.
  - intros J. rewrite in_map_iff in J. destruct J as (p & Ep & J). assert (T : existsb (fun p => key_beq (fst p) kDATE) (st_overriders (n_settings a)) = true).
    { apply existsb_exists. exists p. rewrite Ep. auto. } congruence.
Qed.
(** The dictionaries that are written have the date that is given. *)
Lemma override_date (r : rule) (d d' : na) p : override r d p = Ok d' ->
  (fst p = kDATE -> exists s l, snd p = PStr s /\ Forall2 (fun w z => int_of_str w = Some z) (split_ws s) l /\ d' kDATE = Some (PList (map PInt l))) /\
  (fst p <> kDATE -> d' kDATE = d kDATE).
Proof.
  destruct p as (k, v). cbn [fst snd]. intros Q. split.
  - intros ->. cbn [override] in Q. unfold permitted in Q. cbn [NCWrite.key_in existsb key_beq orb negb] in Q. destruct v; try discriminate Q.
    cbn [split_words bindR] in Q. bindE Q y Hy. apply Ok_inj in Q. subst d'. bindE Hy l Hl. apply Ok_inj in Hy. subst y. exists s.
    assert (K : exists m, l = map PInt m /\ Forall2 (fun w z => int_of_str w = Some z) (split_ws s) m).
    { revert l Hl. induction (split_ws s) as [| w ws IH]; intros l Hl; cbn [map mapR] in Hl; [apply Ok_inj in Hl; subst l; exists []; split; [reflexivity | constructor] |].
      bindE Hl x Hx. bindE Hl t Ht. apply Ok_inj in Hl. subst l. destruct (IH t Ht) as (m & -> & F). cbn [to_int] in Hx. destruct (int_of_str w) as [z |] eqn:Z; [| discriminate Hx].
      apply Ok_inj in Hx. subst x. exists (z :: m). split; [reflexivity | constructor; assumption]. }
    destruct K as (m & -> & F). exists m. split; [reflexivity |]. split; [exact F |]. apply upd_same.
  - intros Nk. unfold override in Q. cbv beta iota in Q. destruct (negb (NCWrite.key_in k permitted)); [apply Ok_inj in Q; subst d'; reflexivity |]. bindE Q y Hy.
    assert (G : forall d0 : na, (exists a b, d0 = upd (upd d k a) (if key_beq k kSCOM then kNSCOML else kNNCOML) b) \/ (exists a, d0 = upd d k a) -> d0 kDATE = d kDATE).
    { intros d0 [(x & b & ->) | (x & ->)]; rewrite ?upd_other; auto; destruct (key_beq k kSCOM); discriminate. }
    apply G. destruct k; try (right; exists y; congruence); try (left; bindE Q cm Hc; bindE Q l Hl; apply Ok_inj in Q; subst d'; do 2 eexists; reflexivity).
Qed.
Lemma overrides_date (r : rule) l : forall (d d' : na) b b', NoDup (map fst l) -> forR l (override_np r) (d, b) = Ok (d', b') ->
  match find (fun p => key_beq (fst p) kDATE) l with
  | Some p => b = false /\ exists s m, snd p = PStr s /\ Forall2 (fun w z => int_of_str w = Some z) (split_ws s) m /\ d' kDATE = Some (PList (map PInt m))
  | None => d' kDATE = d kDATE
  end.
Proof.
  induction l as [| p l IH]; intros d d' b b' Nd Q; cbn [find]. { cbn in Q. injection Q as <- <-. reflexivity. }
  cbn [forR] in Q. bindE Q y Hy. unfold override_np in Hy. cbn [fst snd] in Hy. bindE Hy d1 H1. inversion Nd as [| ? ? Ni Nl]; subst.
  destruct (override_date _ _ _ _ H1) as (A & B). destruct (key_beq (fst p) kDATE) eqn:K.
  - assert (Ek : fst p = kDATE) by (destruct (fst p); try discriminate K; reflexivity). destruct b; [discriminate Hy |]. apply Ok_inj in Hy. subst y. split; [reflexivity |].
    specialize (IH _ _ _ _ Nl Q). assert (N : find (fun p => key_beq (fst p) kDATE) l = None).
    { destruct (find _ l) as [q |] eqn:F; [| reflexivity]. exfalso. apply find_some in F as (I & F). apply Ni. rewrite Ek.
      replace kDATE with (fst q) by (destruct (fst q); try discriminate F; reflexivity). apply in_map, I. }
    rewrite N in IH. destruct (A Ek) as (s & m & Es & F & Ed). exists s, m. rewrite IH. auto.
  - apply Ok_inj in Hy. subst y. specialize (IH _ _ _ _ Nl Q). assert (Nk : fst p <> kDATE) by (intros Ek; rewrite Ek in K; discriminate K).
    destruct (find _ l); [exact IH |]. rewrite IH. apply B, Nk.
Qed.
Theorem C138_date_partial : forall fuel (s : NCWrite.settings) (o : opts num) no_header limit l text fs names ds fs',
  NoDup (map fst (st_overriders s)) -> In (kDATE, PStr text) (st_overriders s) -> l <> [] ->
  write_all_np fuel s o no_header limit l fs = (Ok (names, ds), fs') ->
  exists date, Forall2 (fun w z => int_of_str w = Some z) (split_ws text) date /\ length ds = length l /\
    Forall (fun x => snd (snd x) = false) l /\ Forall (fun d => d kDATE = Some (PList (map PInt date))) ds.
Proof.
  intros fuel s o nh lim l text fs names ds fs' Nd I Ne Q.
  assert (F : find (fun p => key_beq (fst p) kDATE) (st_overriders s) = Some (kDATE, PStr text)).
  { clear - Nd I. induction (st_overriders s) as [| p l IH]; [destruct I |]. cbn [map] in Nd. inversion Nd as [| ? ? Ni Nl]; subst. cbn [find]. destruct I as [-> | I]; [reflexivity |].
    destruct (key_beq (fst p) kDATE) eqn:K; [| apply IH; assumption]. exfalso. apply Ni. replace (fst p) with kDATE by (destruct (fst p); try discriminate K; reflexivity).
    apply (in_map fst) in I. exact I. }
  assert (One : forall d b d', prepare_np s (d, b) = Ok d' -> b = false /\ exists m, Forall2 (fun w z => int_of_str w = Some z) (split_ws text) m /\ d' kDATE = Some (PList (map PInt m))).
  { intros d b d' P. unfold prepare_np in P. bindE P y Hy. destruct y as (d1, b1). pose proof (overrides_date _ _ _ _ _ _ Nd Hy) as K. rewrite F in K. destruct K as (-> & s0 & m & Es & Fm & Ed).
    cbn [snd] in Es. injection Es as <-. split; [reflexivity |]. exists m. split; [exact Fm |]. rewrite <- Ed. cbn [fst] in P. destruct (st_headers s); [| congruence].
    apply (headers_only_comments _ _ P). cbn. intuition discriminate. }
  assert (Same : forall m m', Forall2 (fun w z => int_of_str w = Some z) (split_ws text) m -> Forall2 (fun w z => int_of_str w = Some z) (split_ws text) m' -> m = m').
  { clear. induction (split_ws text) as [| w ws IH]; intros m m' A B; inversion A; inversion B; subst; [reflexivity |]. f_equal; [congruence | apply IH; assumption]. }
  revert Ne fs names ds fs' Q. induction l as [| (n, (d, b)) l IH]; intros Ne fs names ds fs' Q; [congruence |]. clear Ne. cbn [write_all_np] in Q.
  destruct (prepare_np s (d, b)) as [d1 |] eqn:P; [| discriminate Q]. destruct (One _ _ _ P) as (-> & m & Fm & Ed).
  destruct (write_one _ _ _ _ _ _ _) as [[ns |] f1]; [| discriminate Q]. destruct (write_all_np _ _ _ _ _ l f1) as [[[ns' ds1] |] f2] eqn:W; [| discriminate Q]. injection Q as <- <- <-.
  exists m. split; [exact Fm |]. destruct l as [| x l].
  - cbn [write_all_np] in W. injection W as <- <- <-. split; [reflexivity |]. split; constructor; auto.
  - destruct (IH ltac:(discriminate) _ _ _ _ W) as (m' & Fm' & Len & Fl & Fd). rewrite (Same _ _ Fm' Fm) in *. split; [cbn in *; congruence |]. split; constructor; auto.
Qed.
Print Assumptions C138_same.
Print Assumptions C138_date_partial.
(** Where the first axis is a time the date is computed and no array: every date can
    be given, also when the attribute is an array, and the files are written by
    [writeNAFiles]. *)
Theorem C138_time_partial : forall fuel (a : nc_args num) nc_file ds na_file delimiter fs vars cs,
  readXarrayFile ds (n_var_ids a) (n_exclude a) true = Ok vars -> convert (n_env a) (n_ffi a) (ds_attrs ds) vars = Ok (Some cs) ->
  (forall c v vs ax axs, In c cs -> c_main c = v :: vs -> v_axes v = ax :: axs -> ax_time ax <> None) ->
  convertNCToNA_np fuel a nc_file ds (Some na_file) false delimiter fs =
  match writeNAFiles fuel (n_settings a) (mkOpts delimiter (n_fmt a) (n_annotation a) (n_ann a)) (n_no_header a) (n_size_limit a) na_file (na_dicts (Some cs)) fs with
  | (Ok (names, _), fs') => (Ok names, fs')
  | (Err e, fs') => (Err e, fs')
  end.
Proof.
  intros fuel a nc ds nf dl fs vars cs Rv Cv Tm. unfold convertNCToNA_np. rewrite Rv. cbn [bindR]. rewrite Cv. cbv zeta.
  rewrite <- (dated_dicts (ds_attrs ds)). unfold writeNAFiles. rewrite map_length, write_plain, combine_snd; [reflexivity |].
  set (ns := constructNAFileNames _ _). clearbody ns. rewrite Forall_forall. intros (n, (d, b)) I. cbn [snd]. left.
  apply in_combine_r in I. cbn [dated] in I. apply in_flat_map in I as (c & Ic & I).
  destruct (c_na c) as [d0 |]; [| destruct I]. destruct I as [I | []]. injection I as _ <-. unfold numpy_date. apply andb_false_intro2.
  destruct (c_main c) as [| v vs] eqn:Em; [reflexivity |]. destruct (v_axes v) as [| ax axs] eqn:Ea; [reflexivity |].
  specialize (Tm c v vs ax axs Ic Em Ea). destruct (ax_time ax); [reflexivity | contradiction].
Qed.
Print Assumptions C138_time_partial.
(** A dictionary with an array for its date: nothing is returned, and if it is the
    first one nothing is written. *)
Theorem C138_array_partial : forall fuel (a : nc_args num) nc_file ds na_file delimiter fs vars cs c d,
  readXarrayFile ds (n_var_ids a) (n_exclude a) true = Ok vars -> convert (n_env a) (n_ffi a) (ds_attrs ds) vars = Ok (Some cs) ->
  In c cs -> c_na c = Some d -> numpy_date (ds_attrs ds) c = true -> In kDATE (map fst (st_overriders (n_settings a))) ->
  (forall names fs', convertNCToNA_np fuel a nc_file ds na_file false delimiter fs <> (Ok names, fs')) /\
  (forall d', nth_error cs 0 = Some c -> prepare (n_settings a) d = Ok d' -> convertNCToNA_np fuel a nc_file ds na_file false delimiter fs = (Err EValueError, fs)).
Proof.
  intros fuel a nc ds nf dl fs vars cs c d Rv Cv Ic Ec Nc Id. unfold convertNCToNA_np. rewrite Rv. cbn [bindR]. rewrite Cv. cbv zeta.
  set (o := mkOpts _ _ _ _). set (nf' := match nf with Some f => f | None => _ end).
  assert (Il : In (d, true) (dated (ds_attrs ds) (Some cs))). { cbn [dated]. apply in_flat_map. exists c. split; [exact Ic |]. rewrite Ec, Nc. left. reflexivity. }
  pose proof (names_length nf' (length (dated (ds_attrs ds) (Some cs)))) as Ln. set (ns := constructNAFileNames _ _) in *. split.
  - intros names fs' Q.
    assert (G : forall l fs r f, In (d, true) (map snd l) -> write_all_np fuel (n_settings a) o (n_no_header a) (n_size_limit a) l fs <> (Ok r, f)).
    { clear - Id. induction l as [| (n, x) l IH]; intros fs r f I W; [destruct I |]. cbn [write_all_np] in W. destruct I as [I | I].
      - cbn [snd] in I. subst x. unfold prepare_np in W. destruct (forR _ _ (d, true)) as [y |] eqn:Y; [exact (overrides_array _ _ _ _ Id Y) | discriminate W].
      - destruct (prepare_np _ x); [| discriminate W]. destruct (write_one _ _ _ _ _ _ _) as [[n1 |] f1]; [| discriminate W].
        destruct (write_all_np _ _ _ _ _ l f1) as [[[n2 d2] |] f2] eqn:W2; [| discriminate W]. exact (IH _ _ _ I W2). }
    destruct (write_all_np _ _ _ _ _ (combine ns _) fs) as [[[n1 d1] |] f1] eqn:W; [| discriminate Q]. revert W. apply G.
    replace (map snd (combine ns (dated (ds_attrs ds) (Some cs)))) with (dated (ds_attrs ds) (Some cs)); [exact Il |].
    clear - Ln. revert Ln. generalize (dated (ds_attrs ds) (Some cs)). clearbody ns. induction ns as [| n ns IH]; intros [| x l] L; try discriminate L; [reflexivity |]. cbn. f_equal. apply IH. now injection L.
  - intros d' Q0 P. destruct cs as [| c0 cs]; [discriminate Q0 |]. injection Q0 as ->. clearbody ns. cbn [dated flat_map] in Ln |- *. rewrite Ec, Nc in Ln |- *. cbn [app length] in Ln |- *.
    destruct ns as [| n ns]; [discriminate Ln |]. cbn [combine write_all_np]. unfold prepare_np. unfold prepare in P. bindE P d1 P1. rewrite (overrides_error _ _ _ d1 Id P1). reflexivity.
Qed.
Print Assumptions C138_array_partial.
End C138.

(** A NetCDF file with a date as xarray reads it, and the same with a list. *)
Definition dated_ds (array : bool) : dataset Z :=
  mkDs (ds_vars ex_ds) ((lit "first_valid_date_of_data", mkG array (PList [PInt 1999; PInt 1; PInt 1])) :: ds_attrs ex_ds).
Definition date_args : nc_args Z :=
  mkNcArgs env_Z (mkSettings RInsert false [(kORG, PStr (lit "Org")); (kDATE, PStr (lit "2000 2 29"))]) IAll [] None dec_of_Z None false (fun _ => None) false.
(** False of the code: the file can be converted, but not with another date. *)
Theorem C138_refuted : exists (ds : dataset Z) text,
  convertNCToNA_np 10 ask_all (lit "a.nc") ds (Some (lit "a.na")) false (lit " ") [] = (Ok [lit "a.na"], [(lit "a.na", text)]) /\
  contains (lit "1999 1 1 ") text = true /\
  convertNCToNA_np 10 date_args (lit "a.nc") ds (Some (lit "a.na")) false (lit " ") [] = (Err EValueError, []).
Proof.
  exists (dated_ds true), (snd (nth 0 (snd (convertNCToNA_np 10 ask_all (lit "a.nc") (dated_ds true) (Some (lit "a.na")) false (lit " ") [])) ([], []))).
  repeat split; vm_compute; reflexivity.
Qed.
Print Assumptions C138_refuted.
Example C138_example : exists text,
  convertNCToNA_np 10 date_args (lit "a.nc") (dated_ds false) (Some (lit "a.na")) false (lit " ") [] = (Ok [lit "a.na"], [(lit "a.na", text)]) /\
  contains (lit "2000 2 29 ") text = true /\ contains (lit "1999") text = false.
Proof.
  exists (snd (nth 0 (snd (convertNCToNA_np 10 date_args (lit "a.nc") (dated_ds false) (Some (lit "a.na")) false (lit " ") [])) ([], []))).
  repeat split; vm_compute; reflexivity.
Qed.
(** When the first axis is a time the date is computed, and can be replaced. *)
Definition timed_ds : dataset Z :=
  mkDs [var (lit "p") [] [mkAx (mkNamed (lit "time") [] (lit "days")) [None; None; None; None] [3; 4]%Z (Some [3; 4]%Z)] (data [1; 2]%Z)] (ds_attrs (dated_ds true)).
Example C138_time : (match readXarrayFile timed_ds IAll [] true with Ok vars => match convert env_Z None (ds_attrs timed_ds) vars with Ok (Some cs) =>
    map (fun c => map (fun v => map (fun ax => match ax_time ax with Some _ => true | None => false end) (v_axes v)) (c_main c)) cs = [[[true]]] | _ => False end | _ => False end) /\
  exists text,
  convertNCToNA_np 10 date_args (lit "a.nc") timed_ds (Some (lit "a.na")) false (lit " ") [] = (Ok [lit "a.na"], [(lit "a.na", text)]) /\
  contains (lit "2000 2 29 ") text = true.
Proof.
  split; [vm_compute; reflexivity |].
  exists (snd (nth 0 (snd (convertNCToNA_np 10 date_args (lit "a.nc") timed_ds (Some (lit "a.na")) false (lit " ") [])) ([], []))).
  repeat split; vm_compute; reflexivity.
Qed.
(** Also the files that nappy makes from NASA Ames files cannot be converted back
    with another date. *)
Definition own_args (l : list (key * pyv b64)) : nc_args b64 :=
  mkNcArgs env_b (mkSettings RInsert false l) IAll [] None (fmt_g 10) None false (fun _ => None) false.
Definition own_file (l : list (key * pyv b64)) : Res (list str) :=
  (do ob <- converted plain_settings volume_file;
   do ds <- nc_content ob;
   fst (convertNCToNA_np 10 (own_args l) (lit "a.nc") ds (Some (lit "b.na")) false (lit " ") []))%res.
Example C138_own_file : own_file [] = Ok [lit "b.na"] /\ own_file [(kRDATE, PStr (lit "2000 2 29"))] = Ok [lit "b.na"] /\
  own_file [(kDATE, PStr (lit "2000 2 29"))] = Err EValueError.
Proof. vm_compute. auto. Qed.
