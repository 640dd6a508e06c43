(** C49-C51: conversion of variables to NASA Ames dictionaries. *)
From Coq Require Import List NArith ZArith Bool Lia Permutation.
From Verif Require Import Py.Str Py.Res Py.Num Py.Arith Model.Dict Model.NCWrite Model.Xarray Model.Collector Spec.CollectorSpec Spec.ZNum
  Spec.TextSpec Proofs.StrLemmas Proofs.NumLemmas Proofs.BlankLemmas Proofs.ReadFrame Proofs.CollectorLemmas Proofs.CollectorFrame.
Import ListNotations.

(** ** No step of the collector loops for ever *)
Definition nh {A} (m : Res A) : Prop := m <> Err EHang.
Lemma nh_ok {A} (a : A) : nh (Ok a). Proof. discriminate. Qed.
Lemma nh_bind {A B} (m : Res A) (f : A -> Res B) : nh m -> (forall a, nh (f a)) -> nh (bindR m f).
Proof. destruct m as [a | e]; unfold nh; cbn; [intros _ Hf; apply Hf | congruence]. Qed.
Lemma nh_mapR {A B} (f : A -> Res B) l : (forall x, nh (f x)) -> nh (mapR f l).
Proof. intros Hf. induction l as [| x t IH]; cbn; [discriminate |]. apply nh_bind; [apply Hf | intros y]. apply nh_bind; [exact IH | discriminate]. Qed.
Lemma nh_forR {A S} (f : A -> S -> Res S) l : (forall x s, nh (f x s)) -> forall s, nh (forR l f s).
Proof. intros Hf. induction l as [| x t IH]; intros s; cbn; [discriminate |]. apply nh_bind; [apply Hf | intros y; apply IH]. Qed.
Lemma nh_nth {A} (l : list A) i : nh (nth_res l i).
Proof. unfold nth_res, of_opt. destruct (nth_error l i); discriminate. Qed.
Lemma nh_opt {A} e (o : option A) : e <> EHang -> nh (of_opt e o).
Proof. destruct o; unfold nh; cbn; congruence. Qed.
Ltac nhs :=
  repeat first
    [ assumption
    | match goal with
      | |- nh (Ok _) => apply nh_ok
      | |- nh (Err _) => discriminate
      | |- nh (bindR _ _) => apply nh_bind; [| intros ?]
      | |- nh (mapR _ _) => apply nh_mapR; intros ?
      | |- nh (forR _ _ _) => apply nh_forR; intros ? ?
      | |- nh (nth_res _ _) => apply nh_nth
      | |- nh (of_opt _ _) => apply nh_opt; discriminate
      | |- nh (if ?b then _ else _) => destruct b
      | |- nh (match ?x with _ => _ end) => destruct x
      | |- nh (let (_, _) := ?x in _) => destruct x
      | |- nh (let x := _ in _) => cbv zeta
      end ].

Section NH.
Context {num : Type} {Num : NumOps num} {Ar : ArithOps num}.
Local Notation xvar := (xvar num).
Variable E : env num.

Lemma nh_text (g : gval num) : nh (text_of g). Proof. unfold text_of. nhs. Qed.
Lemma nh_name (i : named num) : nh (getBestName i).
Proof. unfold getBestName, first_name, units_of. nhs; apply nh_text. Qed.
Lemma nh_as_int (v : pyv num) : nh (as_int v). Proof. destruct v; discriminate. Qed.
Lemma nh_as_list (v : pyv num) : nh (as_list v). Proof. destruct v; discriminate. Qed.
Lemma nh_fmt (v : pyv num) : nh (fmt_s v). Proof. destruct v; discriminate. Qed.
Lemma nh_push (d : na num) k v : nh (push d k v). Proof. unfold push, app_item. nhs. Qed.
Lemma nh_units (a b : axis num) : nh (same_units a b). Proof. unfold same_units. nhs; apply nh_text. Qed.
Lemma nh_identical (a b : axis num) : nh (areAxesIdentical a b).
Proof. unfold areAxesIdentical. nhs. apply nh_units. Qed.
Lemma nh_subset_loop n b : forall (a : list num) i, nh (subset_loop n a i b).
Proof. induction a as [| x t IH]; intros i; cbn; nhs. apply IH. Qed.
Lemma nh_subset (a b : axis num) : nh (isAxisRegularlySpacedSubsetOf a b).
Proof. unfold isAxisRegularlySpacedSubsetOf. nhs; [apply nh_units | apply nh_subset_loop]. Qed.
Lemma nh_axes : forall a b : list (axis num), nh (axes_identical a b).
Proof. induction a as [| x t IH]; intros [| y s]; cbn; nhs; [apply nh_identical | apply IH]. Qed.
Lemma nh_sort best ids (v : xvar) s : nh (sort_var best ids v s).
Proof. unfold sort_var. nhs; first [apply nh_identical | apply nh_subset | apply nh_axes]. Qed.
Lemma nh_reorder att (vs : list xvar) : nh (reorder att vs).
Proof. unfold reorder, reorder_step, slot. nhs. apply nh_as_int. Qed.
Lemma nh_decide r n k l : nh (decideFileFormatIndex r n k l).
Proof. unfold decideFileFormatIndex. nhs. Qed.
Lemma nh_analyse req vars : nh (analyseVariables E req vars).
Proof. unfold analyseVariables. nhs; first [apply nh_sort | apply nh_reorder | apply nh_decide]. Qed.
Lemma nh_interval (l : list num) i j : nh (interval l i j). Proof. unfold interval. nhs. Qed.
Lemma nh_appendAxis (ax : axis num) (d : na num) : nh (appendAxisDefinition ax d).
Proof. unfold appendAxisDefinition. nhs; first [apply nh_push | apply nh_name | apply nh_interval]. Qed.
Lemma nh_axesdef ffi nvpm (v : xvar) d : nh (defineAxes E ffi nvpm v d).
Proof. unfold defineAxes. nhs; first [apply nh_name | apply nh_interval | apply nh_appendAxis]. Qed.
Lemma nh_var a b c e (v : xvar) (d : na num) : nh (defineVar E a b c e v d).
Proof. unfold defineVar, getMissingValue, getArrayAsList. nhs; first [apply nh_name | apply nh_push | idtac]. Qed.
Lemma nh_item p (s : gst) : nh (global_item E p s).
Proof. unfold global_item. nhs; apply nh_fmt. Qed.
Lemma nh_varcom zl (v : xvar) n : forall atts w s, nh (var_comments zl v n atts w s).
Proof. induction atts as [| [a g] t IH]; intros w s; cbn; nhs; [unfold att_line; nhs; apply nh_fmt | apply IH | apply IH]. Qed.
Lemma nh_collect req globals vars : nh (collectNAContent E req globals vars).
Proof.
  unfold collectNAContent, defineNAVars, defineNAAuxVars, defineNAGlobals, defineNAComments, scom_of, rank_zero_lines, att_line.
  nhs; first [apply nh_analyse | apply nh_var | apply nh_axesdef | apply nh_as_list | apply nh_item | apply nh_name | apply nh_fmt | apply nh_varcom].
Qed.
End NH.

(** ** C49 *)
(** The conversion ends, for all variables, attributes and requests. *)
Theorem C49_terminates : forall num (Num : NumOps num) (Ar : ArithOps num) (E : env num) req globals (vars : list (xvar num)),
  convert E req globals vars <> Err EHang.
Proof.
  intros num Num Ar E req globals vars. change (nh (convert E req globals vars)). unfold convert, convertSingleton, reorderVars.
  nhs; try apply nh_collect; try apply nh_name. apply loop_nohang; [apply nh_collect | apply le_n].
Qed.

Section Convert.
Context {num : Type} {Num : NumOps num} {Ar : ArithOps num}.
Local Notation xvar := (xvar num).
Variable E : env num.

Lemma singleton_axes (v : xvar) : has_axes v = true -> convertSingleton v = Ok v.
Proof. unfold convertSingleton. intros A. rewrite rank_has, A. reflexivity. Qed.
Lemma singleton_scalar (v w : xvar) : has_axes v = false -> convertSingleton v = Ok w ->
  has_axes w = false /\ v_axes w = v_axes v /\ getBestName (v_info v) = Ok (v_name w).
Proof.
  unfold convertSingleton. intros A. rewrite rank_has, A. cbn [negb]. intros R. bindE R n Hn. injection R as <-.
  unfold has_axes in *. apply negb_false_iff, Nat.eqb_eq, length_zero_iff_nil in A. rewrite A. auto.
Qed.
Lemma singletons (l l' : list xvar) : mapR convertSingleton l = Ok l' ->
  filter has_axes l' = filter has_axes l /\ map v_axes l' = map v_axes l /\
  (forall z, In z l' -> has_axes z = false -> exists z0, In z0 l /\ has_axes z0 = false /\ getBestName (v_info z0) = Ok (v_name z)).
Proof.
  revert l'. induction l as [| v t IH]; intros l' R; cbn in R.
  - injection R as <-. split; [reflexivity | split; [reflexivity | intros z []]].
  - bindE R w Hw. bindE R t' Ht. injection R as <-. destruct (IH _ Ht) as (A & B & C).
    destruct (has_axes v) eqn:Hv.
    + rewrite (singleton_axes _ Hv) in Hw. injection Hw as <-. cbn. rewrite Hv, A, B. split; [reflexivity | split; [reflexivity |]].
      intros z [<- | I] Hz; [congruence |]. destruct (C z I Hz) as (z0 & I0 & Q). exists z0. split; [right; exact I0 | exact Q].
    + destruct (singleton_scalar _ _ Hv Hw) as (Hw1 & Hw2 & Hw3). cbn. rewrite Hv, Hw1, A, B, Hw2. split; [reflexivity | split; [reflexivity |]].
      intros z [<- | I] Hz; [exists v; split; [left; reflexivity | auto] |].
      destruct (C z I Hz) as (z0 & I0 & Q). exists z0. split; [right; exact I0 | exact Q].
Qed.
Definition dims (vars : list xvar) : list str := flat_map (fun v => map ax_name (v_axes v)) vars.
Lemma dims_is (vars : list xvar) v : mem_str (v_name v) (dims vars) = is_dimension vars v.
Proof.
  unfold is_dimension, dims, mem_str. induction vars as [| w t IH]; [reflexivity |]. cbn [flat_map existsb]. rewrite existsb_app, IH. f_equal.
  induction (v_axes w) as [| a s IHs]; [reflexivity |]. cbn [map existsb]. rewrite IHs. f_equal.
  unfold ax_name. destruct (str_eqb (v_name v) (n_name (ax_info a))) eqn:Q; symmetry.
  - apply str_eqb_eq in Q as ->. apply str_eqb_eq. reflexivity.
  - apply not_true_is_false. intros C. apply str_eqb_eq in C. rewrite <- C in Q. rewrite (proj2 (str_eqb_eq _ _) eq_refl) in Q. discriminate Q.
Qed.
Lemma dims_map (l l' : list xvar) : map v_axes l' = map v_axes l -> dims l' = dims l.
Proof.
  unfold dims. intros M. rewrite !flat_map_concat_map. f_equal.
  rewrite <- (map_map v_axes (map ax_name) l'), <- (map_map v_axes (map ax_name) l), M. reflexivity.
Qed.
Lemma filter_filter {A} (f g : A -> bool) l : filter f (filter g l) = filter (fun x => f x && g x) l.
Proof. induction l as [| x t IH]; [reflexivity |]. cbn. destruct (g x) eqn:G; cbn; rewrite ?IH, ?G; destruct (f x); reflexivity. Qed.

(** the variables that reach the collector *)
Lemma prepared (xr vars vars' : list xvar) : mapR convertSingleton xr = Ok vars -> reorderVars vars = Ok vars' ->
  filter has_axes vars' = data_vars xr /\ (separate xr -> apart vars') /\
  (forall v, In v vars' -> has_axes v = true -> In v xr).
Proof.
  intros M R. unfold reorderVars in R. destruct (5000 <? length vars)%nat; [discriminate R |]. injection R as <-.
  destruct (singletons _ _ M) as (A & B & C). fold (dims vars). rewrite (dims_map _ _ B).
  set (g := fun v => negb (mem_str (v_name v) (dims xr))).
  assert (F : filter has_axes (filter g vars) = filter g (filter has_axes xr)).
  { rewrite <- A, !filter_filter. apply filter_ext. intros x. apply andb_comm. }
  assert (In1 : forall v, In v (filter g vars) -> has_axes v = true -> In v xr).
  { intros v I Hv. assert (I2 : In v (filter has_axes (filter g vars))) by (apply filter_In; auto).
    rewrite F in I2. apply filter_In in I2 as [I2 _]. apply filter_In in I2. apply I2. }
  split; [| split; [| exact In1]].
  - rewrite F, filter_filter. apply filter_ext. intros v. unfold g. rewrite dims_is. apply andb_comm.
  - intros (S1 & S2 & S3 & S4).
    assert (ND : forall att, NoDup (positions att (filter has_axes xr)) -> NoDup (positions att (filter has_axes (filter g vars)))).
    { intros att N. rewrite F. exact (NoDup_sub _ _ _ _ (filter_perm g (filter has_axes xr)) N). }
    split; [| split; [| split; [apply ND, S3 | apply ND, S4]]].
    + intros v z Iv Iz Hv Hz. apply filter_In in Iz as [Iz _]. destruct (C z Iz Hz) as (z0 & I0 & H0 & N0).
      exact (S1 v z0 _ (In1 v Iv Hv) I0 Hv H0 N0).
    + intros v w a b Iv Iw Va Vb. apply (S2 v w a b); auto; apply In1; auto; unfold has_axes.
      * rewrite Va. reflexivity.
      * destruct (v_axes w); [discriminate Vb | reflexivity].
Qed.
Lemma convert_some req globals xr cs : convert E req globals xr = Ok (Some cs) ->
  exists vars vars' c rest, mapR convertSingleton xr = Ok vars /\ reorderVars vars = Ok vars' /\
    collectNAContent E req globals vars' = Ok c /\ c_na c <> None /\
    convert_loop E (length (c_unused c)) req globals (c_unused c) = Ok rest /\ cs = c :: rest.
Proof.
  unfold convert. intros R. bindE R vars H1. bindE R vars' H2. bindE R c H3. destruct (c_na c) as [d |] eqn:Nc; [| discriminate R].
  bindE R rest H4. injection R as <-. exists vars, vars', c, rest. rewrite Nc. repeat split; auto; discriminate.
Qed.
(** every dictionary is the result of one collection, from input variables *)
Lemma convert_each req globals xr cs c : convert E req globals xr = Ok (Some cs) -> In c cs ->
  exists vs, collectNAContent E req globals vs = Ok c /\ c_na c <> None /\ (forall v, In v vs -> has_axes v = true -> In v xr).
Proof.
  intros R I. destruct (convert_some _ _ _ _ R) as (vars & vars' & c0 & rest & M & O & C & N & L & ->).
  destruct (prepared _ _ _ M O) as (_ & _ & In1).
  destruct I as [<- | I]; [exists vars'; auto |].
  destruct (loop_each E _ _ _ _ _ L c I) as (vs & A & B & D). exists vs. split; [exact B | split; [exact D |]].
  intros v Iv Hv. apply In1; [| exact Hv]. specialize (A v Iv).
  destruct (c_na c0) as [d |] eqn:Nc; [| congruence].
  destruct (collect_some _ _ _ _ _ _ C Nc) as (a & Ha & _ & _ & Eu & _). rewrite Eu in A.
  destruct (analyse_from E _ _ _ Ha) as (_ & _ & F). exact (F v A).
Qed.
End Convert.

(** With variables that are [separate], every data variable is in exactly one
    place: as a main or auxiliary variable of one dictionary. *)
Theorem C49_partial : forall num (Num : NumOps num) (Ar : ArithOps num) (E : env num) req globals (vars : list (xvar num)) cs,
  separate vars -> convert E req globals vars = Ok (Some cs) ->
  Permutation (flat_map (fun c => c_main c ++ c_aux c) cs) (data_vars vars).
Proof.
  intros num Num Ar E req globals xr cs Sp R.
  destruct (convert_some E _ _ _ _ R) as (vars & vars' & c & rest & M & O & C & N & L & ->).
  destruct (prepared _ _ _ M O) as (F & A & _). specialize (A Sp). rewrite <- F.
  change (Permutation (flat_map content (c :: rest)) (filter has_axes vars')). cbn [flat_map].
  rewrite (loop_keeps E _ _ _ _ _ (apart_rest E _ _ _ _ A C) L), (collect_unused_has E _ _ _ _ A C).
  exact (collect_keeps E _ _ _ _ A C).
Qed.
(** Nothing at all is produced only if there is no data variable. *)
Theorem C49_none : forall num (Num : NumOps num) (Ar : ArithOps num) (E : env num) req globals (vars : list (xvar num)),
  convert E req globals vars = Ok None -> data_vars vars = [].
Proof.
  intros num Num Ar E req globals xr R. unfold convert in R. bindE R vars H1. bindE R vars' H2. bindE R c H3.
  destruct (c_na c) as [d |] eqn:Nc; [bindE R rest H4; discriminate R |].
  destruct (prepared _ _ _ H1 H2) as (F & _). rewrite <- F. destruct (collect_none E _ _ _ _ H3 Nc) as (Ha & _).
  assert (Hn := analyse_none E _ _ Ha). clear - Hn. induction vars' as [| v t IH]; [reflexivity |]. cbn.
  rewrite Hn by (left; reflexivity). apply IH. intros w I. apply Hn. right. exact I.
Qed.

(** *** Concrete variables *)
Definition env_Z : env Z :=
  mkEnv (fun l => forallb (fun p => (snd p - fst p =? nth 1 l 0 - nth 0 l 0)%Z) (combine l (tl l))) (lit "2024-01-01 00:00:00") [2024; 1; 1]%Z
    (lit "0.3") (-100)%Z (-9999)%Z 1%Z (fun _ _ => None).
Definition ax (n : str) (l : list Z) : axis Z := mkAx (mkNamed n [] []) [None; None; None; None] l None.
Definition data (l : list Z) : pyv Z := PList (map PNum l).
Definition var (n : str) (atts : list (str * gval Z)) (axes : list (axis Z)) (d : pyv Z) : xvar Z :=
  mkVar (mkNamed n atts []) axes d None None.
Arguments ax _%pylit. Arguments var _%pylit.
Definition found (r : Res (option (list (collected Z)))) : list (list str * list str) :=
  match r with Ok (Some cs) => map (fun c => (map v_name (c_main c), map v_name (c_aux c))) cs | _ => [] end.
Definition got (r : Res (option (list (collected Z)))) : list (collected Z) := match r with Ok (Some cs) => cs | _ => [] end.

Definition xs : axis Z := ax (lit "x") [1; 2; 3; 5]%Z.
Definition ts : axis Z := ax (lit "t") [10; 20]%Z.
Definition ex_vars : list (xvar Z) :=
  [var (lit "a") [] [xs] (data [1; 2; 3; 4]%Z); var (lit "b") [] [ts; xs] (PList [data [1; 2; 3; 4]%Z; data [5; 6; 7; 8]%Z]);
   var (lit "c") [] [ts] (data [1; 2]%Z); var (lit "x") [] [xs] (data [1; 2; 3; 5]%Z); var (lit "s") [] [] (PNum 7%Z)].
(** [b] with [c] as auxiliary variable, then [a]; the scalar [s] becomes a comment
    and the coordinate variable [x] is left out. *)
Example C49_example : separate ex_vars /\
  found (convert env_Z None [] ex_vars) = [([lit "b"], [lit "c"]); ([lit "a"], [])] /\
  map v_name (data_vars ex_vars) = map lit ["a"; "b"; "c"]%pylit.
Proof.
  split; [| split; vm_compute; reflexivity]. split; [| split; [| split; vm_compute; constructor]].
  - intros v z n Iv Iz Hv Hz G E0. subst n. cbn in Iv, Iz.
    destruct Iz as [<- | [<- | [<- | [<- | [<- | []]]]]]; try discriminate Hz.
    destruct Iv as [<- | [<- | [<- | [<- | [<- | []]]]]]; try discriminate Hv; vm_compute in G; discriminate G.
  - intros v w a b Iv Iw Va Vb (n & Hn & L & Q). cbn in Iv, Iw.
    destruct Iv as [<- | [<- | [<- | [<- | [<- | []]]]]]; cbn in Va; try discriminate Va; injection Va as <-;
      destruct Iw as [<- | [<- | [<- | [<- | [<- | []]]]]]; cbn in Vb; try discriminate Vb; injection Vb as <-;
      try (split; reflexivity); exfalso;
      destruct (Q 0%nat _ eq_refl) as (y & Ey & Sm); rewrite Nat.mul_0_r in Ey; injection Ey as <-; discriminate Sm.
Qed.

(** False in general, in three ways.  A variable on every second point of the
    first axis is dropped (FFI 1020 is meant, but never filled). *)
Theorem C49_subset_refuted : exists (vars : list (xvar Z)) cs v,
  convert env_Z None [] vars = Ok (Some cs) /\ In v (data_vars vars) /\
  forall c, In c cs -> ~ In (v_name v) (map v_name (c_main c ++ c_aux c)).
Proof.
  set (vars := [var (lit "a") [] [xs] (data [1; 2; 3; 4]%Z); var (lit "h") [] [ax (lit "y") [1; 3]%Z] (data [1; 2]%Z)]).
  exists vars, (got (convert env_Z None [] vars)), (var (lit "h") [] [ax (lit "y") [1; 3]%Z] (data [1; 2]%Z)).
  split; [vm_compute; reflexivity |]. split; [right; left; reflexivity |].
  intros c I. vm_compute in I. destruct I as [<- | []]. cbn. intros [C | []]. discriminate C.
Qed.
(** A variable with the name of a scalar is dropped. *)
Theorem C49_scalar_name_refuted : exists (vars : list (xvar Z)) cs v,
  convert env_Z None [] vars = Ok (Some cs) /\ In v (data_vars vars) /\
  forall c, In c cs -> ~ In (v_name v) (map v_name (c_main c ++ c_aux c)).
Proof.
  set (vars := [var (lit "a") [] [xs] (data [1; 2; 3; 4]%Z); var (lit "s") [(lit "long_name", gstr (lit "h"))] [] (PNum 7%Z);
                var (lit "h") [] [ts] (data [1; 2]%Z)]).
  exists vars, (got (convert env_Z None [] vars)), (var (lit "h") [] [ts] (data [1; 2]%Z)).
  split; [vm_compute; reflexivity |]. split; [right; left; reflexivity |].
  intros c I. vm_compute in I. destruct I as [<- | []]. cbn. intros [C | []]. discriminate C.
Qed.
(** Of two variables with one number from earlier NASA Ames files (as after merging
    two of them), one is dropped. *)
Theorem C49_number_refuted : exists (vars : list (xvar Z)) cs v,
  convert env_Z None [] vars = Ok (Some cs) /\ In v (data_vars vars) /\
  forall c, In c cs -> ~ In (v_name v) (map v_name (c_main c ++ c_aux c)).
Proof.
  set (num := [(lit "nasa_ames_var_number", gint (num := Z) 0%Z)]).
  set (vars := [var (lit "a") num [xs] (data [1; 2; 3; 4]%Z); var (lit "b") num [xs] (data [5; 6; 7; 8]%Z)]).
  exists vars, (got (convert env_Z None [] vars)), (var (lit "a") num [xs] (data [1; 2; 3; 4]%Z)).
  split; [vm_compute; reflexivity |]. split; [left; reflexivity |].
  intros c I. vm_compute in I. destruct I as [<- | []]. cbn. intros [C | []]. discriminate C.
Qed.

(** ** C50 *)
Section Merge.
Context {num : Type} {Num : NumOps num} {Ar : ArithOps num}.
Local Notation xvar := (xvar num).
Local Notation axis := (axis num).
Variable E : env num.

Lemma text_of_val (g : gval num) s : text_of g = Ok s -> g_val g = PStr s.
Proof. unfold text_of. destruct (g_val g); intros Q; try discriminate Q. injection Q as ->. reflexivity. Qed.
Lemma identical_agree (a b : axis) : areAxesIdentical a b = Ok true -> agree a b.
Proof.
  unfold areAxesIdentical. destruct (cf_conflict a b); [discriminate |].
  destruct (str_eqb (ax_name a) (ax_name b)) eqn:Nm; cbn [negb]; [| discriminate]. apply str_eqb_eq in Nm. intros R.
  bindE R u U. destruct u; cbn [negb] in R; [| discriminate R]. injection R as R.
  apply negb_true_iff, orb_false_iff in R as [L D]. apply negb_false_iff, Nat.eqb_eq in L.
  split; [exact Nm | split; [exact L | split]].
  - unfold same_units, n_attr in U. destruct (lookup (lit "units") (n_attrs (ax_info a))) as [x |], (lookup (lit "units") (n_attrs (ax_info b))) as [y |];
      try discriminate U; [| exact I].
    bindE U s Hs. bindE U t Ht. injection U as U. apply str_eqb_eq in U as ->.
    rewrite (text_of_val _ _ Hs), (text_of_val _ _ Ht). reflexivity.
  - revert D L. unfold all_differ, ax_len. generalize (ax_vals a), (ax_vals b). induction l as [| x t IH]; intros [| y s] D L; try discriminate.
    cbn in D. apply andb_false_iff in D as [D | D].
    + exists 0%nat, x, y. apply negb_false_iff in D. auto.
    + injection L as L. destruct (IH s D L) as (i & x' & y' & A & B & C). exists (S i), x', y'. auto.
Qed.
Lemma axes_identical_agree : forall a b : list axis, length a = length b -> axes_identical a b = Ok true -> Forall2 agree a b.
Proof.
  induction a as [| x t IH]; intros [| y s] L R; try discriminate L; [constructor |].
  cbn in R. bindE R i Hi. destruct i; [| discriminate R]. constructor; [apply identical_agree, Hi |].
  apply IH; [injection L as L; exact L | exact R].
Qed.
Lemma nats_eqb_eq a b : nats_eqb a b = true -> a = b.
Proof.
  revert b. induction a as [| x t IH]; intros [| y s] Q; try discriminate Q; [reflexivity |]. cbn in Q.
  apply andb_true_iff in Q as [Q1 Q2]. apply Nat.eqb_eq in Q1 as ->. f_equal. exact (IH _ Q2).
Qed.
Definition merged (best : xvar) (main aux : list xvar) : Prop :=
  (forall v, In v main -> v = best \/ Forall2 agree (v_axes best) (v_axes v)) /\
  (forall v, In v aux -> exists a b, v_axes v = [a] /\ hd_error (v_axes best) = Some b /\ agree b a).
Lemma sort_var_merged (best : xvar) ids v s s' : sort_var best ids v s = Ok s' ->
  merged best (s_main s) (s_aux s) -> merged best (s_main s') (s_aux s').
Proof.
  unfold sort_var. intros R M. destruct (mem_str (v_name v) ids); [injection R as <-; exact M |].
  destruct (nats_eqb (shape v) (shape best)) eqn:Sh; cbn [negb] in R.
  - bindE R same Hs. injection R as <-. destruct same; [| exact M]. destruct M as [M1 M2]. split; [| exact M2].
    intros w I. cbn in I. apply in_app_iff in I as [I | [<- | []]]; [exact (M1 w I) |]. right.
    apply nats_eqb_eq in Sh. apply axes_identical_agree; [| exact Hs].
    apply (f_equal (@length nat)) in Sh. unfold shape in Sh. rewrite !map_length in Sh. symmetry. exact Sh.
  - destruct (v_axes v) as [| a [|]] eqn:Va; try (injection R as <-; exact M).
    bindE R b Hb. bindE R same Hs. destruct same; cbn [negb] in R.
    + destruct (only_1020 s); injection R as <-; [exact M |]. destruct M as [M1 M2]. split; [exact M1 |].
      intros w I. cbn in I. apply in_app_iff in I as [I | [<- | []]]; [exact (M2 w I) |]. exists a, b.
      split; [exact Va | split; [| apply identical_agree, Hs]].
      destruct (v_axes best); cbn in Hb; [discriminate Hb | injection Hb as ->; reflexivity].
    + bindE R n Hn. destruct n as [[| n] |]; injection R as <-; exact M.
Qed.
Lemma analyse_merged req vars a : analyseVariables E req vars = Ok (Some a) ->
  exists best, In best vars /\ has_axes best = true /\ a_niv a = rank best /\ merged best (a_main a) (a_aux a).
Proof.
  intros R. destruct (analyse_inv E _ _ _ R) as (i & best & limited & s & _ & B & Rb & Hs & Hm & Ha & _ & _ & Hn & _).
  exists best. split; [exact (nth_error_In _ _ B) |].
  split; [unfold has_axes; apply negb_true_iff, Nat.eqb_neq; exact Rb |]. split; [exact Hn |].
  assert (M : merged best (s_main s) (s_aux s)).
  { refine (forR_inv (fun s => merged best (s_main s) (s_aux s)) _ _ _ _ _ Hs _).
    - intros x s1 s2 _ Q. exact (sort_var_merged _ _ _ _ _ Q).
    - split; cbn; [intros v [<- | []]; left; reflexivity | intros v []]. }
  destruct M as [M1 M2]. split.
  - intros v I. exact (M1 v (reorder_in _ _ _ _ Hm I)).
  - intros v I. exact (M2 v (reorder_in _ _ _ _ Ha I)).
Qed.
(** A variable of rank one has no auxiliary variables: they would have to have the
    same axis, but another shape. *)
Lemma nats_eqb_refl l : nats_eqb l l = true.
Proof. induction l as [|x l IH]; cbn; [reflexivity|]. now rewrite Nat.eqb_refl. Qed.
Lemma rank_one req vars a : analyseVariables E req vars = Ok (Some a) -> a_niv a = 1%nat -> a_aux a = [].
Proof.
  intros R N1. destruct (analyse_inv E _ _ _ R) as (i & best & limited & s & _ & B & Rb & Hs & Hm & Ha & _ & _ & Hn & _).
  assert (M : s_aux s = []).
  { refine (forR_inv (fun s => s_aux s = []) _ _ _ _ _ Hs eq_refl). clear - N1 Hn. intros v s s' _ R M. unfold sort_var in R.
    destruct (mem_str (v_name v) _); [injection R as <-; exact M |].
    destruct (nats_eqb (shape v) (shape best)) eqn:Sh; cbn [negb] in R.
    - bindE R same Hs. injection R as <-. destruct same; exact M.
    - destruct (v_axes v) as [| x [|]] eqn:Va; try (injection R as <-; exact M).
      bindE R b Hb. bindE R same Hs. destruct same; cbn [negb] in R.
      + exfalso. apply identical_agree in Hs as (_ & L & _). rewrite Hn in N1. unfold rank in N1. unfold shape in Sh. rewrite Va in Sh.
        destruct (v_axes best) as [| y [|]]; try discriminate N1. cbn [nth_res] in Hb. injection Hb as ->.
        cbn [map] in Sh. unfold ax_len in Sh. rewrite L, nats_eqb_refl in Sh. discriminate Sh.
      + bindE R n H. destruct n as [[| n] |]; injection R as <-; exact M. }
  rewrite M in Ha. cbn in Ha. injection Ha as <-. reflexivity.
Qed.
End Merge.

(** The variables of one dictionary all agree with one variable [best]: name,
    length, units and at least one value of every axis (main variables) or of the
    first axis (auxiliary variables). *)
Theorem C50_partial : forall num (Num : NumOps num) (Ar : ArithOps num) (E : env num) req globals (vars : list (xvar num)) cs c,
  convert E req globals vars = Ok (Some cs) -> In c cs ->
  exists best, In best vars /\
    (forall v, In v (c_main c) -> v = best \/ Forall2 agree (v_axes best) (v_axes v)) /\
    (forall v, In v (c_aux c) -> exists a b, v_axes v = [a] /\ hd_error (v_axes best) = Some b /\ agree b a).
Proof.
  intros num Num Ar E req globals xr cs c R I.
  destruct (convert_each E _ _ _ _ _ R I) as (vs & C & Nc & In1). destruct (c_na c) as [d |] eqn:Nd; [| congruence].
  destruct (collect_some E _ _ _ _ _ C Nd) as (a & Ha & Em & Ea & _). destruct (analyse_merged E _ _ _ Ha) as (best & Ib & Hb & _ & M).
  exists best. split; [exact (In1 best Ib Hb) |]. rewrite Em, Ea. exact M.
Qed.
(** So any two main variables have axes of the same names and lengths, in order. *)
Theorem C50_shape : forall num (Num : NumOps num) (Ar : ArithOps num) (E : env num) req globals (vars : list (xvar num)) cs c v w,
  convert E req globals vars = Ok (Some cs) -> In c cs -> In v (c_main c) -> In w (c_main c) ->
  map (fun a => (ax_name a, ax_len a)) (v_axes v) = map (fun a => (ax_name a, ax_len a)) (v_axes w).
Proof.
  intros num Num Ar E req globals xr cs c v w R I Iv Iw.
  destruct (C50_partial _ _ _ E _ _ _ _ _ R I) as (best & _ & M & _).
  assert (K : forall u, In u (c_main c) -> map (fun a => (ax_name a, ax_len a)) (v_axes u) = map (fun a => (ax_name a, ax_len a)) (v_axes best)).
  { intros u Iu. destruct (M u Iu) as [-> | F]; [reflexivity |]. clear M. induction F as [| a b l l' A _ IH]; [reflexivity |]. cbn. rewrite IH. f_equal.
    destruct A as (A1 & A2 & _). unfold ax_name, ax_len. rewrite A1, A2. reflexivity. }
  rewrite (K v Iv), (K w Iw). reflexivity.
Qed.
(** In one dataset (axes of one name are one axis) the claim holds: the axes are
    equal. *)
Theorem C50_coherent : forall num (Num : NumOps num) (Ar : ArithOps num) (E : env num) req globals (vars : list (xvar num)) cs c v,
  coherent vars -> convert E req globals vars = Ok (Some cs) -> In c cs -> In v (c_main c) ->
  (forall w, In w (c_main c) -> v_axes w = v_axes v) /\
  (forall w, In w (c_aux c) -> v_axes w = firstn 1 (v_axes v)).
Proof.
  intros num Num Ar E req globals xr cs c v Co R I Iv.
  destruct (C50_partial _ _ _ E _ _ _ _ _ R I) as (best & Ib & M & A).
  destruct (convert_each E _ _ _ _ _ R I) as (vs & C & Nc & In1). destruct (c_na c) as [d |] eqn:Nd; [| congruence].
  destruct (collect_some E _ _ _ _ _ C Nd) as (an & Ha & Em & Ea & _). destruct (analyse_from E _ _ _ Ha) as (F1 & F2 & _).
  assert (K : forall u, In u (c_main c) -> v_axes u = v_axes best).
  { intros u Iu. destruct (M u Iu) as [-> | F]; [reflexivity |].
    destruct (has_axes u) eqn:Hu.
    - assert (Ix : In u xr) by (apply In1; [apply F1; rewrite <- Em; exact Iu | exact Hu]).
      assert (G : forall la lb, Forall2 agree la lb -> incl la (v_axes best) -> incl lb (v_axes u) -> lb = la).
      { induction 1 as [| a b l l' Q _ IH]; intros I1 I2; [reflexivity |]. f_equal.
        - symmetry. apply (Co best u a b Ib Ix); [apply I1; left; reflexivity | apply I2; left; reflexivity | apply Q].
        - apply IH; intros x J; [apply I1 | apply I2]; right; exact J. }
      exact (G _ _ F (incl_refl _) (incl_refl _)).
    - unfold has_axes in Hu. apply negb_false_iff, Nat.eqb_eq, length_zero_iff_nil in Hu. rewrite Hu in F |- *. destruct (v_axes best); [reflexivity | inversion F]. }
  split; [intros w Iw; rewrite (K w Iw), (K v Iv); reflexivity |].
  intros w Iw. destruct (A w Iw) as (a & b & Va & Vb & Q). rewrite (K v Iv), Va.
  destruct (v_axes best) as [| b' t] eqn:Vbest; [discriminate Vb |]. injection Vb as ->. cbn. f_equal. symmetry.
  assert (Ix : In w xr) by (apply In1; [apply F2; rewrite <- Ea; exact Iw | unfold has_axes; rewrite Va; reflexivity]).
  apply (Co best w b a Ib Ix); [rewrite Vbest; left; reflexivity | rewrite Va; left; reflexivity | apply Q].
Qed.
Example C50_example : coherent ex_vars /\ found (convert env_Z None [] ex_vars) = [([lit "b"], [lit "c"]); ([lit "a"], [])].
Proof.
  split; [| vm_compute; reflexivity]. intros v w a b Iv Iw Ia Ib Q.
  assert (K : forall u e, In u ex_vars -> In e (v_axes u) -> e = xs \/ e = ts).
  { intros u e Iu Ie. cbn in Iu. destruct Iu as [<- | [<- | [<- | [<- | [<- | []]]]]]; cbn in Ie; intuition congruence. }
  destruct (K v a Iv Ia) as [-> | ->], (K w b Iw Ib) as [-> | ->]; try reflexivity; vm_compute in Q; discriminate Q.
Qed.
(** False in general: one agreeing value is enough. *)
Theorem C50_refuted : exists (vars : list (xvar Z)) cs c v w a b,
  convert env_Z None [] vars = Ok (Some cs) /\ In c cs /\ In v (c_main c) /\ In w (c_main c) /\
  v_axes v = [a] /\ v_axes w = [b] /\ ax_vals a <> ax_vals b.
Proof.
  set (v := var (lit "v") [] [ax (lit "x") [1; 2; 3]%Z] (data [1; 2; 3]%Z)).
  set (w := var (lit "w") [] [ax (lit "x") [1; 50; 60]%Z] (data [1; 2; 3]%Z)).
  exists [v; w], (got (convert env_Z None [] [v; w])), (nth 0 (got (convert env_Z None [] [v; w])) (mkCol None [] [] [] [])), v, w,
    (ax (lit "x") [1; 2; 3]%Z), (ax (lit "x") [1; 50; 60]%Z).
  split; [vm_compute; reflexivity |]. split; [vm_compute; left; reflexivity |].
  split; [vm_compute; left; reflexivity |]. split; [vm_compute; right; left; reflexivity |].
  split; [reflexivity | split; [reflexivity | discriminate]].
Qed.

(** ** C51 *)
Lemma decide_requested r n k l ffi : r <> 0%Z -> decideFileFormatIndex (Some r) n k l = Ok ffi -> ffi = r.
Proof.
  intros N. unfold decideFileFormatIndex, truthy. rewrite (proj2 (Z.eqb_neq r 0) N). cbn [negb andb].
  destruct l as [l |].
  - destruct (existsb (Z.eqb r) l); intros Q; [injection Q as <-; reflexivity | discriminate Q].
  - intros Q. bindE Q f Hf. destruct (Z.eqb_spec f r) as [-> | D]; cbn [negb] in Q; [injection Q as <-; reflexivity | discriminate Q].
Qed.
Lemma decide_free r n k l ffi : (n = 1%nat -> k = 0%nat) -> r = None \/ r = Some 0%Z -> n <> 0%nat -> decideFileFormatIndex r n k l = Ok ffi ->
  (ffi / 1000 = Z.of_nat n)%Z /\ In ffi [1001; 2010; 3010; 4010]%Z.
Proof.
  intros Hk Hr Hn Q. unfold decideFileFormatIndex in Q.
  assert (T : truthy r = false) by (destruct Hr as [-> | ->]; reflexivity). rewrite T in Q. cbn [andb] in Q.
  bindE Q f Hf. injection Q as ->.
  destruct (Nat.ltb_spec 4 n) as [L | L]; [discriminate Hf |].
  destruct Hr as [-> | ->]; destruct n as [| [| [| [| [| n]]]]]; try lia; cbn in Hf; injection Hf as <-;
    try rewrite (Hk eq_refl); cbn; split; try reflexivity; auto 10.
Qed.
Section FFI.
Context {num : Type} {Num : NumOps num} {Ar : ArithOps num}.
Variable E : env num.
Lemma item_ffi p (s s' : gst) : fst p <> lit "file_format_index" -> global_item E p s = Ok s' -> gs_na s' kFFI = gs_na s kFFI.
Proof.
  unfold global_item. destruct p as [k g]. cbn [fst]. cbv zeta. intros Nk R.
  destruct (str_eqb k (lit "first_valid_date_of_data")).
  { destruct (numpy_scalar g); [discriminate R |]. injection R as <-. reflexivity. }
  destruct (negb (negb (g_np g) && match g_val g with PStr _ | PInt _ | PNum _ => true | _ => false end)).
  { injection R as <-. reflexivity. }
  destruct (str_eqb k (lit "history")). { bindE R t Ht. injection R as <-. reflexivity. }
  destruct (str_eqb k (lit "institution")).
  { destruct (g_val g); try discriminate R. destruct (match institution_match s0 with Some p => p | None => (s0, s0) end). injection R as <-. reflexivity. }
  destruct (str_eqb k (lit "comment")).
  { destruct (g_val g); try discriminate R. destruct (sort_comments (split_chr c_nl s0) false false). injection R as <-. reflexivity. }
  destruct (lookup k plain_map) as [key |] eqn:L.
  - injection R as <-. cbn [gs_na]. unfold plain_map in L. cbn [lookup] in L.
    destruct (str_eqb k (lit "source")); [injection L as <-; reflexivity |].
    destruct (str_eqb k (lit "title")); [injection L as <-; reflexivity |].
    destruct (str_eqb k (lit "file_format_index")) eqn:F; [apply str_eqb_eq in F; contradiction |].
    repeat (match type of L with (if ?b then _ else _) = _ => destruct b end; [injection L as <-; reflexivity |]). discriminate L.
  - bindE R t Ht. injection R as <-. reflexivity.
Qed.
Lemma comments_frame g zero main (d : na num) : defineNAComments g zero main = Ok d ->
  same_except [kNCOM; kNNCOML; kSCOM; kNSCOML] (gs_na g) d.
Proof. unfold defineNAComments. cbv zeta. intros R. bindE R sc Hsc. injection R as <-. repeat (apply same_upd; [| cbn; tauto]); apply same_refl. Qed.
End FFI.

(** Without a global attribute [file_format_index], the dictionary has the FFI
    that was asked for; without a request, the FFI has as many independent
    variables as each main variable has axes. *)
Theorem C51_partial : forall num (Num : NumOps num) (Ar : ArithOps num) (E : env num) req globals (vars : list (xvar num)) cs c,
  ~ In (lit "file_format_index") (map fst globals) ->
  convert E req globals vars = Ok (Some cs) -> In c cs ->
  exists d ffi, c_na c = Some d /\ d kFFI = Some (PInt ffi) /\
    (forall r, req = Some r -> r <> 0%Z -> ffi = r) /\
    (req = None -> In ffi [1001; 2010; 3010; 4010]%Z /\
       forall v, In v (c_main c) -> d kNIV = Some (PInt (Z.of_nat (length (v_axes v)))) /\ (ffi / 1000)%Z = Z.of_nat (length (v_axes v))).
Proof.
  intros num Num Ar E req globals xr cs c Ng R I.
  destruct (convert_each E _ _ _ _ _ R I) as (vs & C & Nc & In1). destruct (c_na c) as [d |] eqn:Nd; [| congruence].
  destruct (collect_steps E _ _ _ _ _ C Nd) as (a & d1 & d2 & g & d3 & v0 & ax0 & Ha & H1 & H2 & Hg & H3 & _ & _ & -> & Em & _).
  assert (Fr : forall k, ~ In k (var_keys ++ aux_keys ++ [kNCOM; kNNCOML; kSCOM; kNSCOML] ++ [kRDATE; kDATE; kIVOL; kNVOL]) ->
    defineGeneralHeader E ax0 d3 k = gs_na g k /\ d2 k = upd (upd (match a_nvpm a with Some n => upd (upd na_empty kNIV (PInt (Z.of_nat (a_niv a)))) kNVPM (PInt (Z.of_nat n)) | None => upd na_empty kNIV (PInt (Z.of_nat (a_niv a))) end) kFFI (PInt (a_ffi a))) kNLHEAD (PInt (-999)) k).
  { intros k Nk. rewrite !in_app_iff in Nk.
    rewrite (same_header E ax0 d3 k) by tauto. rewrite (comments_frame _ _ _ _ H3 k) by tauto. split; [reflexivity |].
    rewrite (same_aux E _ _ _ H2 k) by tauto. rewrite (same_vars E _ _ _ _ _ H1 k) by tauto. reflexivity. }
  assert (Gf : gs_na g kFFI = d2 kFFI).
  { unfold defineNAGlobals in Hg.
    refine (forR_inv (fun g => gs_na g kFFI = d2 kFFI) _ _ _ _ _ Hg eq_refl).
    intros x s s' Ix Q P. rewrite <- P. apply (item_ffi E x s s'); [| exact Q]. intros Q'. apply Ng. rewrite <- Q'. apply in_map, Ix. }
  assert (Gn : gs_na g kNIV = d2 kNIV).
  { rewrite (same_globals E _ _ _ Hg kNIV); [reflexivity |]. cbn. intuition discriminate. }
  destruct (Fr kFFI) as [F1 F2]; [cbn; intuition discriminate |].
  destruct (Fr kNIV) as [N1 N2]; [cbn; intuition discriminate |].
  exists (defineGeneralHeader E ax0 d3), (a_ffi a). split; [reflexivity |].
  split; [rewrite F1, Gf, F2; reflexivity |].
  destruct (analyse_inv E _ _ _ Ha) as (i & best & limited & s & _ & _ & Rb & _ & _ & _ & _ & _ & Hn & Hd & _).
  split; [intros r -> Nr; exact (decide_requested _ _ _ _ _ Nr Hd) |].
  intros ->. assert (Hk : rank best = 1%nat -> length (a_aux a) = 0%nat) by (intros K; rewrite (rank_one E _ _ _ Ha); [reflexivity | congruence]).
  destruct (decide_free _ _ _ _ _ Hk (or_introl eq_refl) Rb Hd) as [D1 D2]. split; [exact D2 |].
  intros v Iv.
  assert (Lv : length (v_axes v) = a_niv a).
  { destruct (analyse_merged E _ _ _ Ha) as (best' & _ & _ & Hn' & M & _). rewrite Hn'. rewrite Em in Iv.
    destruct (M v Iv) as [-> | F]; [reflexivity |]. symmetry. clear - F. unfold rank. induction F; cbn; congruence. }
  rewrite Lv. split; [| rewrite D1, Hn; reflexivity].
  rewrite N1, Gn, N2. destruct (a_nvpm a); reflexivity.
Qed.
(** Auxiliary variables are only put beside variables of two or more axes, so FFI
    1001, which has no place for them, loses none and FFI 1010 is never chosen. *)
Theorem C51_auxiliary : forall num (Num : NumOps num) (Ar : ArithOps num) (E : env num) req globals (vars : list (xvar num)) cs c v w,
  convert E req globals vars = Ok (Some cs) -> In c cs -> In v (c_aux c) -> In w (c_main c) -> (2 <= length (v_axes w))%nat.
Proof.
  intros num Num Ar E req globals xr cs c v w R I Iv Iw.
  destruct (convert_each E _ _ _ _ _ R I) as (vs & C & Nc & In1). destruct (c_na c) as [d |] eqn:Nd; [| congruence].
  destruct (collect_some E _ _ _ _ _ C Nd) as (a & Ha & Em & Ea & _).
  destruct (analyse_merged E _ _ _ Ha) as (best & _ & Hb & Hn & M & _). rewrite Em in Iw. rewrite Ea in Iv.
  assert (Lw : length (v_axes w) = rank best).
  { destruct (M w Iw) as [-> | F]; [reflexivity |]. symmetry. clear - F. unfold rank. induction F; cbn; congruence. }
  rewrite Lw. unfold has_axes in Hb. apply negb_true_iff, Nat.eqb_neq in Hb. unfold rank in *.
  destruct (Nat.eq_dec (length (v_axes best)) 1) as [K |]; [| lia].
  rewrite (rank_one E _ _ _ Ha) in Iv by congruence. destruct Iv.
Qed.
Print Assumptions C51_auxiliary.
Definition ffis (r : Res (option (list (collected Z)))) : list (option (pyv Z)) :=
  map (fun c => match c_na c with Some d => d kFFI | None => None end) (got r).
Definition grid : xvar Z := var (lit "b") [] [ts; xs] (PList [data [1; 2; 3; 4]%Z; data [5; 6; 7; 8]%Z]).
Example C51_example :
  ffis (convert env_Z (Some 2110%Z) [] [grid]) = [Some (PInt 2110%Z)] /\
  ffis (convert env_Z None [(lit "title", gstr (lit "t"))] ex_vars) = [Some (PInt 2010%Z); Some (PInt 1001%Z)] /\
  convert env_Z (Some 2310%Z) [] [grid] = Err (ENappy E_RequestedFFI).
Proof. vm_compute. auto. Qed.
(** False in general: the global attribute [file_format_index], which the opposite
    conversion writes, replaces the FFI after the dictionary has been filled for
    another one. *)
Theorem C51_refuted : exists globals (vars : list (xvar Z)) cs c d,
  convert env_Z (Some 2110%Z) globals vars = Ok (Some cs) /\ In c cs /\ c_na c = Some d /\ d kFFI = Some (PInt 2010%Z).
Proof.
  set (r := convert env_Z (Some 2110%Z) [(lit "file_format_index", gint 2010%Z)] [grid]).
  exists [(lit "file_format_index", gint 2010%Z)], [grid], (got r), (nth 0 (got r) (mkCol None [] [] [] [])),
    (match c_na (nth 0 (got r) (mkCol None [] [] [] [])) with Some d => d | None => na_empty end).
  split; [vm_compute; reflexivity |]. split; [vm_compute; left; reflexivity |]. split; vm_compute; reflexivity.
Qed.
(** and without a request: a dictionary for FFI 2010 that says 1001 *)
Theorem C51_unrequested_refuted : exists globals (vars : list (xvar Z)) cs c d,
  convert env_Z None globals vars = Ok (Some cs) /\ In c cs /\ c_na c = Some d /\ d kFFI = Some (PInt 1001%Z) /\ d kNIV = Some (PInt 2%Z).
Proof.
  set (r := convert env_Z None [(lit "file_format_index", gint 1001%Z)] [grid]).
  exists [(lit "file_format_index", gint 1001%Z)], [grid], (got r), (nth 0 (got r) (mkCol None [] [] [] [])),
    (match c_na (nth 0 (got r) (mkCol None [] [] [] [])) with Some d => d | None => na_empty end).
  split; [vm_compute; reflexivity |]. split; [vm_compute; left; reflexivity |]. split; [vm_compute; reflexivity |]. split; vm_compute; reflexivity.
Qed.

Print Assumptions C49_terminates. Print Assumptions C49_partial. Print Assumptions C49_none. Print Assumptions C49_subset_refuted.
Print Assumptions C49_scalar_name_refuted. Print Assumptions C49_number_refuted. Print Assumptions C50_partial.
Print Assumptions C50_shape. Print Assumptions C50_coherent. Print Assumptions C50_refuted. Print Assumptions C51_partial.
Print Assumptions C51_refuted. Print Assumptions C51_unrequested_refuted.
