(** C141: an object that converts a NASA Ames file, after an exception. *)
From Coq Require Import List NArith ZArith Bool Lia.
From Verif Require Import Py.Str Py.Res Py.Num Py.Arith Model.Dict Model.CommonUtils Model.Utils Model.NACore Model.NARead Model.NCWrite
  Model.Normalize Model.Xarray Model.Collector Model.ToXarray Model.ToXarrayLife Spec.TextSpec Spec.ToXarraySpec Spec.ReadSpec Spec.Binary64
  Proofs.StrLemmas Proofs.CollectorLemmas Props.NormalizeProps Props.ToXarrayProps Props.ToXarrayMore Props.GlobalAttrs Props.AuxSelect.
Import ListNotations.

(** * Loops that stop *)
Lemma collect_ok {A B} (f : A -> Res B) l ys : collect f l = (ys, None) <-> mapR f l = Ok ys.
Proof.
  revert ys. induction l as [| x t IH]; intros ys; cbn [collect mapR].
  - split; intros Q; injection Q as <-; reflexivity.
  - destruct (f x) as [y | e]; cbn [bindR]; [| split; discriminate].
    destruct (collect f t) as [zs o] eqn:C. split; intros Q.
    + injection Q as <- ->. rewrite (proj1 (IH zs) eq_refl). reflexivity.
    + bindE Q us Hu. injection Q as <-. apply IH in Hu. injection Hu as -> ->. reflexivity.
Qed.
Lemma collect_stop {A B} (f : A -> Res B) l ys x t e : mapR f l = Ok ys -> f x = Err e -> collect f (l ++ x :: t) = (ys, Some e).
Proof.
  intros M F. revert ys M. induction l as [| y r IH]; intros ys M; cbn [app collect].
  - injection M as <-. rewrite F. reflexivity.
  - cbn [mapR] in M. bindE M z Hz. bindE M zs Hzs. injection M as <-. rewrite Hz, (IH _ Hzs). reflexivity.
Qed.
Lemma mapR_bind {A B C} (f : A -> Res B) (g : B -> Res C) l zs :
  mapR (fun x => bindR (f x) g) l = Ok zs <-> exists ys, mapR f l = Ok ys /\ mapR g ys = Ok zs.
Proof.
  revert zs. induction l as [| x t IH]; intros zs; cbn [mapR].
  - split; [intros Q; exists []; auto | intros (ys & Q & R); injection Q as <-; exact R].
  - split.
    + intros Q. bindE Q z Hz. bindE Hz y Hy. bindE Q us Hu. apply IH in Hu as (ys & H1 & H2). injection Q as <-.
      exists (y :: ys). rewrite Hy. cbn [bindR]. rewrite H1. cbn [bindR mapR]. rewrite Hz. cbn [bindR]. rewrite H2. auto.
    + intros (ys & Q & R). bindE Q y Hy. bindE Q ys' Hy'. injection Q as <-. cbn [mapR] in R. bindE R z Hz. bindE R us Hu. injection R as <-.
      rewrite Hy. cbn [bindR]. rewrite Hz. cbn [bindR]. rewrite (proj2 (IH us)) by eauto. reflexivity.
Qed.

Section Lemmas.
Context {num : Type} {Num : NumOps num} {Ar : ArithOps num}.
Local Notation settings := (settings (num := num)).
(** * One call on a new object *)
Lemma fill_axes_ok cb (w : bool) (d : na num) is : forall k acc axes,
  (exists k', forR is (fun i st => bindR (convertAxis cb w d i (snd st)) (fun q => Ok (fst st ++ [fst q], snd q))) (acc, k) = Ok (acc ++ axes, k')) <->
  fill_axes cb w d is k = (axes, None).
Proof.
  induction is as [| i t IH]; intros k acc axes; cbn [forR fill_axes].
  - split.
    + intros (k' & Q). injection Q as Q _. assert (L := f_equal (@length _) Q). rewrite app_length in L. destruct axes; [reflexivity | cbn in L; lia].
    + intros Q. injection Q as <-. rewrite app_nil_r. eauto.
  - cbn [fst snd]. destruct (convertAxis cb w d i k) as [[a k1] | e]; cbn [bindR fst snd]; [| split; [intros (k' & Q); discriminate | discriminate]].
    destruct (fill_axes cb w d t k1) as [l o] eqn:F. split.
    + intros (k' & Q). assert (G : exists r, axes = a :: r).
      { clear -Q. remember (acc ++ [a]) as m eqn:Em in Q.
        assert (P : exists r, acc ++ axes = m ++ r).
        { clear Em. revert m k1 Q. induction t as [| j t IH]; intros m k1 Q; cbn [forR] in Q.
          - injection Q as -> _. exists []. symmetry. apply app_nil_r.
          - cbn [fst snd] in Q. bindE Q q Hq. bindE Hq p Hp. injection Hq as <-. apply IH in Q as (r & ->). exists ([fst p] ++ r). rewrite <- app_assoc. reflexivity. }
        destruct P as (r & P). subst m. rewrite <- app_assoc in P. apply app_inv_head in P. exists r. exact P. }
      destruct G as (r & ->). assert (F' : fill_axes cb w d t k1 = (r, None)).
      { apply (IH k1 (acc ++ [a])). exists k'. rewrite <- app_assoc. exact Q. }
      rewrite F in F'. injection F' as -> ->. reflexivity.
    + intros Q. injection Q as <- ->. apply (IH k1 (acc ++ [a])) in F as (k' & F). rewrite <- app_assoc in F. exists k'. exact F.
Qed.
Lemma make_axes_ok (s : settings) d axes : make_axes s d = (axes, None) <-> convertAxes (t_callback s) (t_warning s) (t_units s) (t_answers s) d = Ok axes.
Proof.
  unfold make_axes, convertAxes. destruct (as_int (attr d kNIV)) as [niv | e]; cbn [bindR]; [| split; discriminate].
  destruct (if (0 <? niv)%Z then normalized d else Ok d) as [d' | e]; cbn [bindR]; [| split; discriminate].
  rewrite <- (fill_axes_ok (t_callback s) (t_warning s) d' (range niv) (mkAsked (t_units s) (t_answers s)) [] axes). cbn [app]. split.
  - intros (k' & Q). rewrite Q. reflexivity.
  - intros Q. bindE Q r Hr. injection Q as <-. destruct r as [r k']. exists k'. exact Hr.
Qed.
Lemma make_vars_ok (s : settings) d axes vars : make_vars s d axes = (vars, None) <->
  exists is, selected_main d (t_vars s) = Ok is /\ mapR (convertMain (t_callback s) (renames s) d axes) is = Ok vars.
Proof.
  unfold make_vars, selected_main. destruct (t_vars s) as [| [| i l] | [| x t]].
  - destruct (as_int (attr d kNV)) as [nv | e]; cbn [bindR]; [rewrite collect_ok | split; [discriminate | intros (is & Q & _); discriminate]].
    split; [eauto | intros (is & Q & R); injection Q as <-; exact R].
  - split; [discriminate | intros (is & Q & _); discriminate].
  - rewrite collect_ok. split; [eauto | intros (is & Q & R); injection Q as <-; exact R].
  - split; [discriminate | intros (is & Q & _); discriminate].
  - destruct (match x with c :: _ => is_digit c | [] => false end); rewrite collect_ok, <- mapR_bind.
    + assert (E : forall l : list str, mapR (fun y => bindR (of_opt EValueError (int_of_str y)) (fun z => if (z <? 0)%Z then Err EUnmodelled else convertMain (t_callback s) (renames s) d axes (Z.to_nat z))) l =
        mapR (fun y => bindR (bindR (of_opt EValueError (int_of_str y)) (fun z => if (z <? 0)%Z then Err EUnmodelled else Ok (Z.to_nat z))) (convertMain (t_callback s) (renames s) d axes)) l).
      { induction l as [| y l IH]; [reflexivity |]. cbn [mapR]. rewrite IH. destruct (of_opt EValueError (int_of_str y)) as [z | e]; cbn [bindR]; [| reflexivity].
        destruct (z <? 0)%Z; reflexivity. }
      rewrite E. reflexivity.
    + assert (E : forall l : list str, mapR (fun y => bindR (as_list (attr d kVNAME)) (fun names => bindR (of_opt (ENappy E_Other) (position y names 0)) (convertMain (t_callback s) (renames s) d axes))) l =
        mapR (fun y => bindR (bindR (as_list (attr d kVNAME)) (fun names => of_opt (ENappy E_Other) (position y names 0))) (convertMain (t_callback s) (renames s) d axes)) l).
      { induction l as [| y l IH]; [reflexivity |]. cbn [mapR]. rewrite IH. destruct (as_list (attr d kVNAME)); reflexivity. }
      rewrite E. reflexivity.
Qed.
Lemma make_aux_ok (s : settings) d axes aux : make_aux s d axes = (aux, None) <->
  exists js, selected_aux d (t_aux s) = Ok js /\ mapR (convertAux (t_callback s) (renames s) d axes) js = Ok aux.
Proof.
  unfold make_aux, selected_aux. destruct (t_aux s) as [| [| i l] | [| x t]]; try (split; [discriminate | intros (is & Q & _); discriminate]).
  - destruct (as_int (attr d kNAUXV)) as [nv | e]; cbn [bindR]; [rewrite collect_ok | split; [discriminate | intros (is & Q & _); discriminate]].
    split; [eauto | intros (is & Q & R); injection Q as <-; exact R].
  - rewrite collect_ok. split; [eauto | intros (is & Q & R); injection Q as <-; exact R].
  - destruct (as_list (attr d kANAME)) as [names | e]; cbn [bindR]; [rewrite collect_ok | split; [discriminate | intros (is & Q & _); discriminate]].
    split; [eauto | intros (is & Q & R); injection Q as <-; exact R].
Qed.
End Lemmas.

(** The first call on a new object is the conversion of C54 and the other
    properties of Model.ToXarray. *)
Theorem C141_first : forall num (Num : NumOps num) (Ar : ArithOps num) (s : settings (num := num)) d x,
  toXarray s d = Ok x <-> exists o, create s d = Ok o /\ snd (convert s (Ok d) o) = Ok x.
Proof.
  intros num Num Ar s d x. unfold toXarray, create. destruct (as_int (attr d kFFI)) as [ffi | e]; cbn [bindR]; [| split; [discriminate | intros (o & Q & _); discriminate]].
  destruct (existsb (Z.eqb ffi) [2110; 2160; 2310]%Z); [split; [discriminate | intros (o & Q & _); discriminate] |].
  unfold convert. cbv zeta. fold (renames s).
  assert (G : forall T : Prop, (T <-> snd (convert s (Ok d) (mkLife (t_globals s) None None None false)) = Ok x) ->
    (T <-> exists o, Ok (mkLife (t_globals s) None None None false) = Ok o /\ snd (convert s (Ok d) o) = Ok x)).
  { intros T Q. split; [intros P; exists (mkLife (t_globals s) None None None false); split; [reflexivity | apply Q, P] |].
    intros (o & P & R). apply Ok_inj in P. subst o. apply Q, R. }
  apply G. clear G. unfold convert. cbn [l_done l_globals l_axes l_vars l_aux made].
  destruct (mapNACommentsToGlobalAttributes (t_now s) (t_version s) d (t_globals s)) as [g | e]; cbn [bindR snd]; [| split; discriminate].
  destruct (make_axes s d) as [axes [e |]] eqn:A.
  { cbn [snd]. destruct (convertAxes (t_callback s) (t_warning s) (t_units s) (t_answers s) d) as [axes' | e'] eqn:A'; cbn [bindR]; [| split; discriminate].
    apply make_axes_ok in A'. congruence. }
  rewrite (proj1 (make_axes_ok _ _ _) A). cbn [bindR].
  destruct (make_vars s d axes) as [vars [e |]] eqn:V.
  { cbn [snd]. split; [| discriminate]. intros Q. bindE Q is Hi. bindE Q vs Hv. assert (V' : make_vars s d axes = (vs, None)) by (apply make_vars_ok; eauto). congruence. }
  destruct (proj1 (make_vars_ok _ _ _ _) V) as (is & Hi & Hv). rewrite Hi. cbn [bindR]. rewrite Hv. cbn [bindR].
  unfold aux_step. destruct (attr d kNAUXV) as [| n | | |]; try (cbn [bindR snd]; tauto). destruct (0 <? n)%Z; [cbn [made] | cbn [bindR snd]; tauto].
  destruct (make_aux s d axes) as [aux [e |]] eqn:X.
  { cbn [snd]. split; [| discriminate]. intros Q. bindE Q us Hu. bindE Hu js Hj. assert (X' : make_aux s d axes = (us, None)) by (apply make_aux_ok; eauto). congruence. }
  destruct (proj1 (make_aux_ok _ _ _ _) X) as (js & Hj & Hx). rewrite Hj. cbn [bindR]. rewrite Hx. cbn [bindR snd]. tauto.
Qed.
Print Assumptions C141_first.

(** After a call that returned, every further call returns the same, whatever
    happens to the file. *)
Lemma convert_done {num} {Num : NumOps num} {Ar : ArithOps num} (s : settings (num := num)) r o o' x : convert s r o = (o', Ok x) ->
  l_done o' = true /\ l_vars o' = Some (o_vars x) /\ l_aux o' = Some (o_aux x) /\ l_globals o' = o_globals x.
Proof.
  unfold convert. destruct (l_done o) eqn:D.
  { destruct (l_vars o) as [v |] eqn:V; [| discriminate]. destruct (l_aux o) as [a |] eqn:A; [| discriminate].
    intros Q. injection Q as <- <-. auto. }
  destruct r as [d | e]; [| discriminate]. destruct (mapNACommentsToGlobalAttributes _ _ _ _); [| discriminate].
  destruct (made (l_axes o) _) as [axes [e |]]; [discriminate |]. destruct (made (l_vars o) _) as [vars [e |]]; [discriminate |].
  destruct (aux_step s d axes (l_aux o)) as [aux [e |]]; [discriminate |].
  intros Q. injection Q as <- <-. auto.
Qed.
Theorem C141_kept_partial : forall num (Num : NumOps num) (Ar : ArithOps num) (s : settings (num := num)) r o o' x reads,
  convert s r o = (o', Ok x) -> calls s reads o' = map (fun _ => Ok x) reads.
Proof.
  intros num Num Ar s r o o' x reads C. destruct (convert_done _ _ _ _ _ C) as (D & V & A & G).
  induction reads as [| r' t IH]; [reflexivity |]. cbn [calls map].
  assert (E : convert s r' o' = (o', Ok x)) by (unfold convert; rewrite D, V, A, G; destruct x; reflexivity).
  rewrite E, IH. reflexivity.
Qed.
Print Assumptions C141_kept_partial.

(** An exception before the axes (a file that cannot be read, or a header that
    cannot be made into attributes) leaves the object as it was. *)
Theorem C141_early_partial : forall num (Num : NumOps num) (Ar : ArithOps num) (s : settings (num := num)) r o o' e,
  convert s r o = (o', Err e) -> l_axes o' = None -> o' = o.
Proof.
  intros num Num Ar s r o o' e. unfold convert. destruct (l_done o); [intros Q; injection Q as <- _; reflexivity |].
  destruct r as [d | e']; [| intros Q; injection Q as <- _; reflexivity].
  destruct (mapNACommentsToGlobalAttributes _ _ _ _); [| intros Q; injection Q as <- _; reflexivity].
  destruct (made (l_axes o) _) as [axes [e' |]]; [intros Q; injection Q as <- _; discriminate |].
  destruct (made (l_vars o) _) as [vars [e' |]]; [intros Q; injection Q as <- _; discriminate |].
  destruct (aux_step s d axes (l_aux o)) as [aux [e' |]]; [intros Q; injection Q as <- _; discriminate | discriminate].
Qed.
Print Assumptions C141_early_partial.

(** * The global attributes a second time *)
Lemma dict_in {A} (l : list (str * A)) k : In k (map fst l) -> exists v, In (k, v) l /\ lookup k (dict_of_list l) = Some v.
Proof.
  induction l as [| [k' v'] t IH] using rev_ind; [intros [] |]. intros I. rewrite map_app in I. apply in_app_iff in I as [I | [<- | []]].
  - unfold dict_of_list. rewrite fold_left_app. cbn [fold_left fst snd]. destruct (str_eqb k k') eqn:Q.
    + apply str_eqb_eq in Q as ->. exists v'. split; [apply in_or_app; right; left; reflexivity | apply dset_lookup].
    + destruct (IH I) as (v & V & L). exists v. split; [apply in_or_app; left; exact V |]. rewrite dset_other; [exact L |].
      intros ->. rewrite (proj2 (str_eqb_eq _ _) eq_refl) in Q. discriminate Q.
  - exists v'. split; [apply in_or_app; right; left; reflexivity |]. apply (dict_of_last t k' v' []). intros [].
Qed.
Lemma dset_nodup {A} k (v : A) l : NoDup (map fst l) -> NoDup (map fst (dset k v l)).
Proof.
  induction l as [| [k' v'] t IH]; intros N; cbn [dset map fst]; [constructor; [intros [] | constructor] |].
  cbn [map fst] in N. inversion N as [| x y N1 N2]; subst. destruct (str_eqb k k') eqn:Q; cbn [map fst].
  - apply str_eqb_eq in Q as ->. exact N.
  - constructor; [| apply IH; exact N2]. intros I. apply dset_keys in I as [-> | I]; [| exact (N1 I)].
    rewrite (proj2 (str_eqb_eq _ _) eq_refl) in Q. discriminate Q.
Qed.
Lemma fold_nodup {A} (l : list (str * A)) : forall acc, NoDup (map fst acc) -> NoDup (map fst (fold_left (fun d p => dset (fst p) (snd p) d) l acc)).
Proof. induction l as [| [k v] t IH]; intros acc N; [exact N |]. cbn [fold_left fst snd]. apply IH, dset_nodup, N. Qed.
Lemma globals_again {num} {Num : NumOps num} now version (d : na num) user g :
  mapNACommentsToGlobalAttributes now version d user = Ok g -> mapNACommentsToGlobalAttributes now version d g = Ok g.
Proof.
  intros R. assert (R0 := R). unfold mapNACommentsToGlobalAttributes in R. bindE R G HG. clear R.
  assert (HG0 := HG). unfold glob_atts in HG. bindE HG gi Hi. bindE HG gh Hh. bindE HG gc Hc. apply Ok_inj in HG.
  match type of HG with fold_left ?f ?l _ = _ => set (ten := l) in HG end.
  assert (Nt : NoDup (map fst ten)).
  { assert (K : forall l : list str, (fix nd l := match l with [] => true | x :: t => negb (mem_str x t) && nd t end) l = true -> NoDup l).
    { induction l as [| x t IH]; intros Q; [constructor |]. apply andb_prop in Q as [Q1 Q2]. constructor; [| apply IH, Q2].
      intros I. apply mem_str_in in I. rewrite I in Q1. discriminate Q1. }
    apply K. subst ten. vm_compute. reflexivity. }
  assert (Ng : NoDup (map fst G)) by (rewrite <- HG; apply fold_nodup, fold_nodup; constructor).
  destruct (globals_lookup _ _ _ _ _ _ HG0 Ng R0) as [Gl Gk].
  remember (fold_left (fun d p => dset (fst p) (snd p) d) ten (dict_of_list g)) as G' eqn:EG.
  assert (HG' : glob_atts now version d g = Ok G') by (unfold glob_atts; rewrite Hi; cbn [bindR]; rewrite Hh; cbn [bindR]; rewrite Hc; cbn [bindR]; rewrite EG; reflexivity).
  assert (L : forall k v, In (k, v) g -> lookup k G' = Some v).
  { intros k v I. rewrite EG. assert (Q := Gl _ _ I). destruct (in_dec (list_eq_dec N.eq_dec) k (map fst ten)) as [T | T].
    - apply in_map_iff in T as ([k' w] & E & T). cbn [fst] in E. subst k'. rewrite (set_last _ _ _ _ Nt T). rewrite <- HG, (set_last _ _ _ _ Nt T) in Q. exact Q.
    - rewrite set_keeps by exact T. destruct (dict_in g k) as (w & W & E); [apply in_map_iff; exists (k, v); auto |]. rewrite E. apply Gl in W. congruence. }
  unfold mapNACommentsToGlobalAttributes. rewrite HG'. cbn [bindR].
  assert (M : mapR (fun p => bindR (of_opt EKeyError (lookup (fst p) G')) (fun v => Ok (fst p, v))) g = Ok g).
  { clear -L. induction g as [| [k v] t IH]; [reflexivity |]. cbn [mapR fst]. rewrite (L k v) by (left; reflexivity). cbn [of_opt bindR].
    rewrite IH by (intros k' v' I; apply L; right; exact I). reflexivity. }
  rewrite M. cbn [bindR].
  assert (K : forall p, In p G' -> mem_str (fst p) (map fst g) = true).
  { intros p I. apply mem_str_in. apply (in_map fst) in I. rewrite EG in I. apply fold_keys in I as [I | I].
    - apply Gk. apply in_map_iff in I as ([k w] & E & T). cbn [fst] in E. subst k. rewrite <- HG, (set_last _ _ _ _ Nt T). discriminate.
    - apply fold_keys in I as [I | []]. exact I. }
  assert (F : filter (fun p => negb (mem_str (fst p) (map fst g))) G' = []).
  { revert K. clear. induction G' as [| p t IH]; intros K; [reflexivity |]. cbn [filter]. rewrite (K p) by (left; reflexivity). apply IH. intros q I. apply K. right. exact I. }
  rewrite F, app_nil_r. reflexivity.
Qed.

(** * An exception among the variables *)
Lemma second_call {num} {Num : NumOps num} {Ar : ArithOps num} (s : settings (num := num)) d o g axes vars aux e :
  create s d = Ok o -> mapNACommentsToGlobalAttributes (t_now s) (t_version s) d (t_globals s) = Ok g ->
  make_axes s d = (axes, None) -> make_vars s d axes = (vars, Some e) -> aux_step s d axes None = (aux, None) ->
  calls s [Ok d; Ok d] o = [Err e; Ok (mkObj vars aux g)].
Proof.
  intros C G A V X. unfold create in C. bindE C ffi Hf. destruct (existsb _ _) in C; [discriminate C |]. apply Ok_inj in C. subst o.
  cbn [calls]. unfold convert at 1. cbn [l_done l_globals l_axes l_vars l_aux made]. rewrite G, A, V.
  unfold convert. cbn [l_done l_globals l_axes l_vars l_aux made]. rewrite (globals_again _ _ _ _ _ G), X. reflexivity.
Qed.
Lemma position_unknown {num} (u : str) (names : list (pyv num)) : ~ In (PStr u) names -> forall i, position u names i = None.
Proof.
  intros N. induction names as [| v t IH]; intros i; [reflexivity |]. assert (N' : ~ In (PStr u) t) by (intros I; apply N; right; exact I).
  destruct v as [| | | w |]; cbn [position]; try (apply IH, N'). destruct (str_eqb u w) eqn:Q; [| apply IH, N'].
  apply str_eqb_eq in Q as ->. exfalso. apply N. left. reflexivity.
Qed.
(** A list of names of which one is not known: the first call stops with an
    exception, the second call returns what asking for the names before it would
    have returned. *)
Theorem C141_unknown : forall num (Num : NumOps num) (Ar : ArithOps num) (s : settings (num := num)) a d known u rest names x,
  toXarray (asking (SStrs known) a s) d = Ok x ->
  (forall n t c r, known = n :: t -> n = c :: r -> is_digit c = false) ->
  attr d kVNAME = PList names -> ~ In (PStr u) names ->
  exists o, create (asking (SStrs (known ++ u :: rest)) a s) d = Ok o /\
    calls (asking (SStrs (known ++ u :: rest)) a s) [Ok d; Ok d] o = [Err (ENappy E_Other); Ok x].
Proof.
  intros num Num Ar s a d known u rest names x T K Q U. apply C141_first in T as (o & C & T). exists o. split; [exact C |].
  assert (C0 := C). unfold create in C. bindE C ffi Hf. destruct (existsb _ _) in C; [discriminate C |]. apply Ok_inj in C. subst o.
  unfold convert in T. cbn [l_done l_globals l_axes l_vars l_aux made] in T.
  destruct (mapNACommentsToGlobalAttributes _ _ d _) as [g | e] eqn:G; [| discriminate T].
  destruct (make_axes _ d) as [axes [e |]] eqn:A in T; [discriminate T |].
  destruct (make_vars _ d axes) as [vars [e |]] eqn:V in T; [discriminate T |].
  destruct (aux_step _ d axes None) as [aux [e |]] eqn:X in T; [discriminate T |]. cbn [snd] in T. apply Ok_inj in T. subst x.
  apply (second_call _ d _ g axes vars aux); [exact C0 | exact G | exact A | | exact X].
  unfold make_vars in V |- *. cbn [asking t_vars t_callback] in V |- *. destruct known as [| n t]; [discriminate V |]. cbn [app].
  assert (Dg : match n with c :: _ => is_digit c | [] => false end = false) by (destruct n as [| c r]; [reflexivity | exact (K _ _ _ _ eq_refl eq_refl)]).
  rewrite Dg in V |- *. apply collect_ok in V. rewrite app_comm_cons. apply collect_stop; [exact V |].
  rewrite Q. cbn [as_list bindR]. rewrite (position_unknown u names U). reflexivity.
Qed.
Print Assumptions C141_unknown.

(** * An exception among the axes *)
Lemma fill_axes_short {num} {Num : NumOps num} {Ar : ArithOps num} cb (w : bool) (d : na num) is : forall k axes e, fill_axes cb w d is k = (axes, Some e) -> (length axes < length is)%nat.
Proof.
  induction is as [| i t IH]; intros k axes e; cbn [fill_axes]; [discriminate |].
  destruct (convertAxis cb w d i k) as [[a k'] | e']; [| intros Q; injection Q as <- _; cbn; lia].
  destruct (fill_axes cb w d t k') as [l o] eqn:F. intros Q. injection Q as <- ->. apply IH in F. cbn. lia.
Qed.
Lemma range_length z : length (range z) = Z.to_nat z. Proof. unfold range. apply seq_length. Qed.
Lemma make_axes_short {num} {Num : NumOps num} {Ar : ArithOps num} (s : settings (num := num)) d axes e niv : attr d kNIV = PInt niv -> make_axes s d = (axes, Some e) -> (length axes < Z.to_nat niv)%nat.
Proof.
  intros N. unfold make_axes. rewrite N. cbn [as_int]. destruct (Z.ltb_spec 0 niv) as [L | L].
  - destruct (normalized d) as [d' | e']; [| intros Q; injection Q as <- _; cbn; lia]. intros Q. apply fill_axes_short in Q. rewrite range_length in Q. exact Q.
  - intros Q. apply fill_axes_short in Q. rewrite range_length in Q. exact Q.
Qed.
Lemma nats_eqb_length : forall a b, nats_eqb a b = true -> length a = length b.
Proof.
  induction a as [| x a IH]; intros [| y b]; cbn; intros Q; try discriminate Q; [reflexivity |]. apply andb_prop in Q as [_ Q]. f_equal. apply IH, Q.
Qed.
(** When an axis cannot be made (the user, asked for the units of time, gives no
    answer, for example) the second call stops too, because the axes are missing,
    and the third returns without any variable. *)
Theorem C141_axes : forall num (Num : NumOps num) (Ar : ArithOps num) (s : settings (num := num)) d o g e0 niv nv v,
  create s d = Ok o -> mapNACommentsToGlobalAttributes (t_now s) (t_version s) d (t_globals s) = Ok g ->
  convertAxes (t_callback s) (t_warning s) (t_units s) (t_answers s) d = Err e0 ->
  t_vars s = SAll -> attr d kNV = PInt nv -> (0 < nv)%Z -> attr d kNAUXV = PNone ->
  attr d kNIV = PInt niv -> index (attr d kV) 0 = Ok v -> (forall shape, array_shape v = Some shape -> length shape = Z.to_nat niv) ->
  exists e1 e2, calls s [Ok d; Ok d; Ok d] o = [Err e1; Err e2; Ok (mkObj [] [] g)].
Proof.
  intros num Num Ar s d o g e0 niv nv v C G A Sv Nv L Na Ni V Sh.
  unfold create in C. bindE C ffi Hf. destruct (existsb _ _) in C; [discriminate C |]. apply Ok_inj in C. subst o.
  destruct (make_axes s d) as [axes [e1 |]] eqn:M; [| apply make_axes_ok in M; congruence]. exists e1.
  assert (Sl := make_axes_short _ _ _ _ _ Ni M).
  assert (K : exists e2, make_vars s d axes = ([], Some e2)).
  { unfold make_vars. rewrite Sv, Nv. cbn [as_int]. assert (R : exists t, range nv = 0%nat :: t).
    { unfold range. destruct (Z.to_nat nv) eqn:Q; [lia | cbn; eauto]. }
    destruct R as (t & ->). cbn [collect]. destruct (convertMain (t_callback s) (renames s) d axes 0) as [y | e2] eqn:Y; [| eauto]. exfalso.
    unfold convertMain, convertVariable in Y. bindE Y i Hi. rewrite V in Y. cbn [bindR] in Y. bindE Y sc Hs.
    destruct (array_shape v) as [sh |] eqn:Q; [| discriminate Y]. destruct (nats_eqb sh (map ax_len axes)) eqn:Q2; [| discriminate Y].
    apply nats_eqb_length in Q2. rewrite map_length in Q2. specialize (Sh _ eq_refl). lia. }
  destruct K as (e2 & K). exists e2.
  assert (G2 := globals_again _ _ _ _ _ G).
  assert (X : aux_step s d axes None = ([], None)) by (unfold aux_step; rewrite Na; reflexivity).
  cbn [calls]. unfold convert at 1. cbn [l_done l_globals l_axes l_vars l_aux made]. rewrite G, M.
  unfold convert at 1. cbn [l_done l_globals l_axes l_vars l_aux made]. rewrite G2, K.
  unfold convert. cbn [l_done l_globals l_axes l_vars l_aux made]. rewrite G2, X. reflexivity.
Qed.
Print Assumptions C141_axes.

(** * Files *)
Definition outcome (r : Res (objects (num := b64))) : Res (list str) := bindR r (fun o => Ok (map v_name (o_vars o ++ o_aux o))).
(** The names of the variables that successive calls return. *)
Definition outcomes (s : settings (num := b64)) (reads : list (Res str)) : list (Res (list str)) :=
  let read c := bindR c (fun c => bindR (read_file (num := b64) c 0) (fun p => Ok (snd p))) in
  match reads with
  | Ok c :: _ => match bindR (read (Ok c)) (create s) with
                 | Ok o => map outcome (calls s (map read reads) o)
                 | Err e => [Err e]
                 end
  | _ => []
  end.
Definition names_asked (l : list pylit) : settings := asking (SStrs (map lit l)) SAll plain_settings.
(** Two variables are asked for, the second by a wrong name; an unknown name in the
    first place; a right request, twice. *)
Example C141_example :
  outcomes (names_asked ["Temp (K)"; "3He (ppt)"; "Ozone"]%pylit) [Ok f_two; Ok f_two; Ok f_two] = [Err (ENappy E_Other); Ok (map lit ["temp"; "3he"]%pylit); Ok (map lit ["temp"; "3he"]%pylit)] /\
  outcomes (names_asked ["Ozone"; "Temp (K)"]%pylit) [Ok f_two; Ok f_two] = [Err (ENappy E_Other); Ok []] /\
  outcomes (names_asked ["Temp (K)"]%pylit) [Ok f_two; Err (ENappy E_Other)] = [Ok [lit "temp"]; Ok [lit "temp"]].
Proof. vm_compute. auto. Qed.
(** A time axis without units: the question to the user gets no answer; the second
    call stops as well, the third returns no variable. *)
Definition f_time : str := file_1001 (lit "time") (lit "1 1") (lit "-9999 -9999") (map lit ["Temp (K)"; "3He (ppt)"]%pylit) (map lit ["0 280 1"; "10 281 2"]%pylit).
Definition asks : settings (num := b64) := mkSet SAll SAll [] None true [] [] None (lit "2024-01-01 00:00:00") (lit "2.0").
Example C141_axes_example : outcomes asks [Ok f_time; Ok f_time; Ok f_time] = [Err (ENappy E_Other); Err EValueError; Ok []].
Proof. vm_compute. reflexivity. Qed.
(** A file that is not there, then is: nothing is lost. *)
Example C141_early_example : match read_file (num := b64) f_two 0 with
  | Ok (_, d) => match create plain_settings d with
                 | Ok o => map outcome (calls plain_settings [Err (ENappy E_Other); Ok d] o) = [Err (ENappy E_Other); Ok (map lit ["temp"; "3he"]%pylit)]
                 | Err _ => False
                 end
  | Err _ => False
  end.
Proof. vm_compute. reflexivity. Qed.

(** False of the code: an object that refused a request (a name is not known) can
    be used to write a file, and the file has fewer variables than were asked for. *)
Theorem C141_refuted : exists content (s : settings (num := b64)) d o o1 e asked x,
  read_file content 0 = Ok (C1001, d) /\ create s d = Ok o /\ t_vars s = SStrs asked /\ length asked = 2%nat /\
  convert s (Ok d) o = (o1, Err e) /\ snd (writeNCFile s (Ok d) o1) = Ok x /\ map fst (fst x) = [lit "temp"].
Proof.
  set (s := names_asked ["Temp (K)"; "3He"]%pylit).
  assert (K : match read_file (num := b64) f_two 0 with
              | Ok (C1001, d) => match create s d with
                                 | Ok o => match convert s (Ok d) o with
                                           | (o1, Err _) => match snd (writeNCFile s (Ok d) o1) with
                                                            | Ok x => map fst (fst x) = [lit "temp"]
                                                            | Err _ => False
                                                            end
                                           | _ => False
                                           end
                                 | Err _ => False
                                 end
              | _ => False
              end) by (vm_compute; reflexivity).
  destruct (read_file (num := b64) f_two 0) as [[c d] |] eqn:R; [| destruct K]. destruct c; try (destruct K; fail).
  destruct (create s d) as [o |] eqn:C; [| destruct K]. destruct (convert s (Ok d) o) as [o1 [x0 | e]] eqn:V; [destruct K |].
  destruct (snd (writeNCFile s (Ok d) o1)) as [x |] eqn:W; [| destruct K].
  exists f_two, s, d, o, o1, e, (map lit ["Temp (K)"; "3He"]%pylit), x.
  split; [exact R |]. split; [exact C |]. split; [reflexivity |]. split; [reflexivity |]. split; [exact V |]. split; [exact W | exact K].
Qed.
Print Assumptions C141_refuted.
