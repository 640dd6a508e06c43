(** C80 and C81: global attributes and the names in the header. *)
From Coq Require Import List NArith ZArith Bool Lia.
From Verif Require Import Py.Str Py.Res Py.Num Py.Arith Model.Dict Spec.TextSpec Spec.Binary64 Model.Xarray Model.Collector Model.ToXarray Spec.HeaderSpec Spec.ToXarraySpec Spec.ValuesSpec
  Proofs.StrLemmas Proofs.ReadFrame Proofs.CollectorLemmas Proofs.CollectorFrame Props.CollectorProps Props.ToXarrayProps Props.ToXarrayMore Props.AxisProps Props.ValuesProps.
Import ListNotations.

(** ** The regular expression *)
Lemma re_dots_none {B} (k : str -> option B) t : (forall g r, t = g ++ r -> ~ In c_nl g -> k r = None) -> re_dots k t = None.
Proof.
  induction t as [| c t IH]; intros N; cbn [re_dots]; rewrite (N [] _ eq_refl (fun x => x)); [reflexivity |].
  destruct (N.eqb_spec c c_nl) as [-> | D]; [reflexivity |]. rewrite IH; [reflexivity |].
  intros g r -> Ng. apply (N (c :: g) r); [reflexivity |]. intros [Q | Q]; auto.
Qed.
Lemma re_dots_longest {B} (k : str -> option B) g r b : ~ In c_nl g -> k r = Some b ->
  (forall c g' r', r = c :: g' ++ r' -> k r' = None) -> re_dots k (g ++ r) = Some (g, b).
Proof.
  intros Ng Kr L. induction g as [| c g IH].
  - cbn [app]. destruct r as [| c r]; cbn [re_dots]; rewrite Kr; [reflexivity |]. destruct (N.eqb_spec c c_nl) as [-> | D]; [reflexivity |].
    rewrite re_dots_none; [reflexivity |]. intros g r' -> _. exact (L c g r' eq_refl).
  - cbn [app re_dots]. destruct (N.eqb_spec c c_nl) as [-> | D]; [exfalso; apply Ng; left; reflexivity |].
    rewrite IH; [reflexivity |]. intros I. apply Ng. right. exact I.
Qed.
Lemma re_spaces_lit {B} p (k : str -> option B) s b : re_spaces (re_lit p k) s = Some b -> exists a q, s = a ++ p ++ q /\ a <> [].
Proof.
  revert b. induction s as [| c t IH]; intros b; cbn [re_spaces]; [discriminate |]. destruct (is_space c); [| discriminate].
  destruct (re_spaces (re_lit p k) t) as [b' |] eqn:Q.
  - intros _. destruct (IH b' eq_refl) as (a & q & -> & _). exists (c :: a), q. split; [reflexivity | discriminate].
  - unfold re_lit. destruct (starts_with p t) eqn:St; [| discriminate]. intros _. exists [c], (skipn (length p) t). split; [| discriminate].
    cbn [app]. f_equal. clear - St. revert t St. induction p as [| x p IH]; intros t St; [reflexivity |]. destruct t as [| y t]; [discriminate St |].
    cbn [starts_with] in St. apply andb_true_iff in St as (Q & St). apply N.eqb_eq in Q. subst. cbn [length skipn app]. f_equal. apply IH, St.
Qed.
Lemma starts_refl p q : starts_with p (p ++ q) = true.
Proof. induction p as [| c p IH]; [reflexivity |]. cbn [app starts_with]. rewrite N.eqb_refl. exact IH. Qed.
Lemma app_split {A} (a b c d : list A) : a ++ b = c ++ d -> (length a <= length c)%nat -> exists e, c = a ++ e /\ b = e ++ d.
Proof.
  revert c. induction a as [| x a IH]; intros c Q L; [exists c; auto |]. destruct c as [| y c]; [cbn in L; lia |].
  cbn [app] in Q. injection Q as -> Q. destruct (IH c Q) as (e & -> & ->); [cbn in L; lia |]. exists e. auto.
Qed.
(** An occurrence of the mark cannot begin in [r] and end behind it, nor begin
    behind it. *)
Lemma occurs_end r : occurs oname_mark (r ++ lit " (ORG from NASA Ames file).") -> occurs oname_mark r.
Proof.
  set (e := lit " (ORG from NASA Ames file)."). intros (a & b & Q). destruct (Nat.le_gt_cases (length r) (length a)) as [L | L].
  - exfalso. destruct (app_split _ _ _ _ Q L) as (a' & -> & Q').
    assert (F : forallb (fun i => negb (starts_with oname_mark (skipn i e))) (seq 0 28) = true) by (vm_compute; reflexivity).
    rewrite forallb_forall in F. specialize (F (length a')). rewrite Q' in F.
    rewrite skipn_app, skipn_all, Nat.sub_diag in F. cbn [skipn app] in F. rewrite starts_refl in F. discriminate F.
    apply in_seq. apply (f_equal (@length chr)) in Q'. rewrite !app_length in Q'. change (length e) with 27%nat in Q'. lia.
  - symmetry in Q. destruct (app_split _ _ _ _ Q (Nat.lt_le_incl _ _ L)) as (u & Er & Q'). rewrite Er in L. rewrite app_length in L.
    destruct (Nat.le_gt_cases (length oname_mark) (length u)) as [M | M].
    + destruct (app_split _ _ _ _ Q' M) as (w & -> & _). exists a, w. rewrite Er. reflexivity.
    + exfalso. symmetry in Q'. destruct (app_split _ _ _ _ Q' (Nat.lt_le_incl _ _ M)) as (w & Em & Q2).
      assert (F : forallb (fun i => negb (starts_with (skipn i oname_mark) e)) (seq 1 27) = true) by (vm_compute; reflexivity).
      rewrite forallb_forall in F. specialize (F (length u)).
      assert (Sk : skipn (length u) oname_mark = w) by (rewrite Em, skipn_app, skipn_all, Nat.sub_diag; reflexivity).
      rewrite Sk, Q2, starts_refl in F. discriminate F. apply in_seq. change (length oname_mark) with 28%nat in M. lia.
Qed.
Lemma org_found r : ~ In c_nl r ->
  re_dots (re_spaces (re_lit org_mark (fun _ => Some tt))) (r ++ lit " (ORG from NASA Ames file).") = Some (r, tt).
Proof.
  intros N. apply re_dots_longest; [exact N | vm_compute; reflexivity |]. intros c g' r' Q.
  destruct (re_spaces (re_lit org_mark (fun _ => Some tt)) r') eqn:K; [| reflexivity]. exfalso.
  destruct (re_spaces_lit _ _ _ _ K) as (a & q & -> & Na). apply (f_equal (@length chr)) in Q. cbn [length] in Q. rewrite !app_length in Q.
  change (length (lit " (ORG from NASA Ames file).")) with 27%nat in Q. change (length org_mark) with 26%nat in Q. destruct a; [contradiction |]. cbn [length] in Q. lia.
Qed.
Lemma institution_found o r : separable o r -> institution_match (na_institution o r) = Some (o, r).
Proof.
  intros (No & Nr & Sr & Oc). unfold institution_match, na_institution.
  rewrite (re_dots_longest _ o _ (r, tt)); [reflexivity | exact No | |].
  - change (lit " (ONAME from NASA Ames file); " ++ r ++ lit " (ORG from NASA Ames file).")
      with (c_sp :: oname_mark ++ c_sp :: r ++ lit " (ORG from NASA Ames file).").
    cbn [re_spaces]. change (is_space c_sp) with true. cbv iota.
    replace (re_spaces _ (oname_mark ++ _)) with (@None (str * unit)) by reflexivity.
    unfold re_lit at 1. rewrite starts_refl, skipn_app, skipn_all, Nat.sub_diag. cbn [skipn app re_spaces]. change (is_space c_sp) with true. cbv iota.
    destruct r as [| c r]; [vm_compute; reflexivity |].
    cbn [app re_spaces]. rewrite (Sr c r eq_refl). change (c :: r ++ lit " (ORG from NASA Ames file).") with ((c :: r) ++ lit " (ORG from NASA Ames file).").
    apply org_found, Nr.
  - intros c g' r' Q.
    destruct (re_spaces (re_lit oname_mark _) r') eqn:K; [| reflexivity]. exfalso.
    destruct (re_spaces_lit _ _ _ _ K) as (a & q & -> & Na). apply Oc, occurs_end.
    (* the occurrence is behind the first one *)
    assert (Q' : lit " (ONAME from NASA Ames file); " ++ (r ++ lit " (ORG from NASA Ames file).") = (c :: g' ++ a) ++ oname_mark ++ q).
    { rewrite Q. cbn [app]. f_equal. rewrite <- app_assoc. reflexivity. }
    destruct (Nat.le_gt_cases 30 (length (c :: g' ++ a))) as [L | L].
    + destruct (app_split _ _ _ _ Q' L) as (u & _ & ->). exists u, q. reflexivity.
    + exfalso.
      assert (M : (length (c :: g' ++ a) <= length (lit " (ONAME from NASA Ames file); "))%nat) by (change (length (lit " (ONAME from NASA Ames file); ")) with 30%nat; lia).
      symmetry in Q'. destruct (app_split _ _ _ _ Q' M) as (u & E1 & E2).
      assert (F : forallb (fun i => match skipn i (lit " (ONAME from NASA Ames file); ") with [] => true | x :: _ => negb (x =? 40)%N end) (seq 2 28) = true)
        by (vm_compute; reflexivity).
      rewrite forallb_forall in F. specialize (F (length (c :: g' ++ a))). rewrite E1, skipn_app, skipn_all, Nat.sub_diag in F. cbn [skipn app] in F.
      destruct u as [| x u].
      * apply (f_equal (@length chr)) in E1. rewrite app_nil_r in E1. rewrite <- E1 in L. change (length (lit " (ONAME from NASA Ames file); ")) with 30%nat in L. lia.
      * assert (x = 40%N). { change oname_mark with (40%N :: tl oname_mark) in E2. cbn [app] in E2. congruence. } subst x. discriminate F.
        apply in_seq. destruct a; [contradiction |]. cbn [length] in L |- *. rewrite app_length in L |- *. cbn [length] in L |- *. lia.
Qed.

(** ** The header *)
Section Names.
Context {num : Type} {Num : NumOps num} {Ar : ArithOps num}.
Variable E : env num.
Local Notation gst := (gst (num := num)).
(** The attributes that set an entry. *)
Definition setters (k : key) : list str :=
  match k with
  | kONAME | kORG => [lit "institution"]
  | kSNAME => [lit "source"] | kMNAME => [lit "title"]
  | _ => []
  end.
Lemma item_other p (s s' : gst) k : In k [kONAME; kORG; kSNAME; kMNAME] -> ~ In (fst p) (setters k) -> global_item E p s = Ok s' -> gs_na s' k = gs_na s k.
Proof.
  unfold global_item. destruct p as [n g]. cbn [fst]. cbv zeta. intros Ik Nk R.
  destruct (str_eqb n (lit "first_valid_date_of_data")).
  { destruct (numpy_scalar g); [discriminate R |]. injection R as <-. cbn in Ik. destruct Ik as [<- | [<- | [<- | [<- | []]]]]; reflexivity. }
  destruct (negb (negb (g_np g) && match g_val g with PStr _ | PInt _ | PNum _ => true | _ => false end)).
  { injection R as <-. reflexivity. }
  destruct (str_eqb n (lit "history")). { bindE R t Ht. injection R as <-. reflexivity. }
  destruct (str_eqb n (lit "institution")) eqn:Q.
  { apply str_eqb_eq in Q. destruct (g_val g); try discriminate R. destruct (match institution_match s0 with Some p => p | None => (s0, s0) end).
    injection R as <-. cbn in Ik. destruct Ik as [<- | [<- | [<- | [<- | []]]]]; try reflexivity; exfalso; apply Nk; left; congruence. }
  destruct (str_eqb n (lit "comment")).
  { destruct (g_val g); try discriminate R. destruct (sort_comments (split_chr c_nl s0) false false). injection R as <-. reflexivity. }
  destruct (lookup n plain_map) as [key |] eqn:L; [| bindE R t Ht; injection R as <-; reflexivity].
  injection R as <-. cbn [gs_na]. unfold plain_map in L. cbn [lookup] in L.
  destruct (str_eqb n (lit "source")) eqn:Q1.
  { apply str_eqb_eq in Q1. injection L as <-. cbn in Ik. destruct Ik as [<- | [<- | [<- | [<- | []]]]]; try reflexivity. exfalso. apply Nk. left. congruence. }
  destruct (str_eqb n (lit "title")) eqn:Q2.
  { apply str_eqb_eq in Q2. injection L as <-. cbn in Ik. destruct Ik as [<- | [<- | [<- | [<- | []]]]]; try reflexivity. exfalso. apply Nk. left. congruence. }
  repeat (match type of L with (if ?b then _ else _) = _ => destruct b end;
    [injection L as <-; cbn in Ik; destruct Ik as [<- | [<- | [<- | [<- | []]]]]; reflexivity |]). discriminate L.
Qed.
Lemma to_header req globals (vars : list (xvar num)) cs c d : convert E req globals vars = Ok (Some cs) -> In c cs -> c_na c = Some d ->
  exists d2 g, defineNAGlobals E globals d2 = Ok g /\ forall k, In k [kONAME; kORG; kSNAME; kMNAME] -> d2 k = None /\ d k = gs_na g k.
Proof.
  intros R I Nd. destruct (convert_each E _ _ _ _ _ R I) as (vs & C & _ & _).
  destruct (collect_steps E _ _ _ _ _ C Nd) as (a & d1 & d2 & g & d3 & v0 & ax0 & Ha & H1 & H2 & Hg & H3 & _ & _ & Ed & Em & _).
  exists d2, g. split; [exact Hg |]. intros k Ik. assert (N : forall l, (forall x, In x l -> ~ In x [kONAME; kORG; kSNAME; kMNAME]) -> ~ In k l) by (intros l F J; exact (F k J Ik)).
  split.
  - rewrite (same_aux E _ _ _ H2 k) by (apply N; cbn; intuition (subst; discriminate)). rewrite (same_vars E _ _ _ _ _ H1 k) by (apply N; cbn; intuition (subst; discriminate)).
    cbn in Ik. destruct (a_nvpm a); destruct Ik as [<- | [<- | [<- | [<- | []]]]]; reflexivity.
  - rewrite Ed, (same_header E ax0 d3 k) by (apply N; cbn; intuition (subst; discriminate)). apply (comments_frame _ _ _ _ H3 k). apply N; cbn; intuition (subst; discriminate).
Qed.
Lemma globals_other globals d g k : In k [kONAME; kORG; kSNAME; kMNAME] -> (forall n, In n (setters k) -> ~ In n (map fst globals)) ->
  forall s, forR globals (global_item E) s = Ok g -> gs_na s k = d -> gs_na g k = d.
Proof.
  intros Ik N s R. refine (forR_inv (fun s => gs_na s k = d) _ _ _ _ _ R). intros x s1 s2 Ix Q P. rewrite <- P.
  apply (item_other x s1 s2 k Ik); [| exact Q]. intros J. apply (N _ J). apply in_map, Ix.
Qed.
(** the step of one attribute decides *)
Lemma globals_one globals n v d2 g k w : NoDup (map fst globals) -> In (n, v) globals -> setters k = [n] -> In k [kONAME; kORG; kSNAME; kMNAME] ->
  (forall s s', global_item E (n, v) s = Ok s' -> gs_na s' k = w) -> defineNAGlobals E globals d2 = Ok g -> gs_na g k = w.
Proof.
  intros Nd Iv Sk Ik St R. unfold defineNAGlobals in R. destruct (in_split _ _ Iv) as (l1 & l2 & ->). rewrite forR_app in R. bindE R s1 H1.
  cbn [forR] in R. bindE R s2 H2. rewrite map_app in Nd. cbn [map fst] in Nd. apply NoDup_remove_2 in Nd. rewrite in_app_iff in Nd.
  refine (globals_other l2 w g k Ik _ s2 R (St _ _ H2)). rewrite Sk. intros m [<- | []] J. tauto.
Qed.
End Names.
(** line breaks become two blanks *)
Definition joined (t : str) : str := flat_map (fun c => if (c =? c_nl)%N then [c_sp; c_sp] else [c]) t.
Lemma replace_joined t : replace_str nl (lit "  ") t = joined t.
Proof.
  unfold replace_str. induction t as [| c t IH]; [reflexivity |]. cbn [replace_aux joined flat_map].
  change nl with [c_nl] in *. cbn [starts_with]. rewrite (N.eqb_sym c_nl c). destruct (N.eqb_spec c c_nl); cbn [andb length pred]; rewrite IH; reflexivity.
Qed.
Lemma joined_one t : ~ In c_nl t -> joined t = t.
Proof.
  induction t as [| c t IH]; intros N; [reflexivity |]. cbn [joined flat_map]. destruct (N.eqb_spec c c_nl) as [-> | D]; [exfalso; apply N; left; reflexivity |].
  cbn [app]. f_equal. apply IH. intros I. apply N. right. exact I.
Qed.
Lemma no_mark t : ~ occurs oname_mark t -> institution_match t = None.
Proof.
  intros N. unfold institution_match. rewrite re_dots_none; [reflexivity |]. intros g r -> _.
  destruct (re_spaces (re_lit oname_mark _) r) eqn:K; [| reflexivity]. exfalso. destruct (re_spaces_lit _ _ _ _ K) as (a & q & -> & _).
  apply N. exists (g ++ a), q. rewrite <- !app_assoc. reflexivity.
Qed.

(** ** C80 *)
(** Every converted dictionary has the title as MNAME, the source as SNAME, and
    the institution as ONAME and ORG, with line breaks as two blanks; an
    institution that was made of ONAME and ORG is taken apart again.  An entry
    whose attribute is not there is not there. *)
Theorem C80_names : forall num (Num : NumOps num) (Ar : ArithOps num) (E : env num) req globals (vars : list (xvar num)) cs c,
  NoDup (map fst globals) -> convert E req globals vars = Ok (Some cs) -> In c cs ->
  exists d, c_na c = Some d /\
    (forall t, In (lit "title", gstr t) globals -> d kMNAME = Some (PStr t)) /\
    (forall t, In (lit "source", gstr t) globals -> d kSNAME = Some (PStr t)) /\
    (forall t, In (lit "institution", gstr t) globals -> ~ occurs (lit "(ONAME from NASA Ames file);") t ->
       d kONAME = Some (PStr (joined t)) /\ d kORG = Some (PStr (joined t))) /\
    (forall o r, separable o r -> In (lit "institution", gstr (na_institution o r)) globals -> d kONAME = Some (PStr o) /\ d kORG = Some (PStr r)) /\
    (~ In (lit "title") (map fst globals) -> d kMNAME = None) /\ (~ In (lit "source") (map fst globals) -> d kSNAME = None) /\
    (~ In (lit "institution") (map fst globals) -> d kONAME = None /\ d kORG = None).
Proof.
  intros num Num Ar E req globals vars cs c Nd R I. destruct (convert_each E _ _ _ _ _ R I) as (vs & C & Nc & _).
  destruct (c_na c) as [d |] eqn:Hd; [| congruence]. exists d. split; [reflexivity |].
  destruct (to_header E _ _ _ _ _ _ R I Hd) as (d2 & g & Hg & F).
  assert (One : forall n v k w, In (n, v) globals -> setters k = [n] -> In k [kONAME; kORG; kSNAME; kMNAME] ->
    (forall s s', global_item E (n, v) s = Ok s' -> gs_na s' k = w) -> d k = w).
  { intros n v k w Iv Sk Ik St. destruct (F k Ik) as (_ & ->). exact (globals_one E _ _ _ _ _ _ _ Nd Iv Sk Ik St Hg). }
  assert (Non : forall n k, setters k = [n] -> In k [kONAME; kORG; kSNAME; kMNAME] -> ~ In n (map fst globals) -> d k = None).
  { intros n k Sk Ik Nn. destruct (F k Ik) as (F1 & ->). refine (globals_other E _ _ _ k Ik _ _ Hg F1). rewrite Sk. intros m [<- | []]. exact Nn. }
  assert (Inst : forall t o r s s', match institution_match t with Some p => p | None => (t, t) end = (o, r) ->
    global_item E (lit "institution", gstr t) s = Ok s' -> gs_na s' kONAME = Some (PStr (joined o)) /\ gs_na s' kORG = Some (PStr (joined r))).
  { intros t o r s s' Q St. unfold global_item in St. cbv zeta in St.
    change (str_eqb (lit "institution") (lit "first_valid_date_of_data")) with false in St. change (str_eqb (lit "institution") (lit "history")) with false in St.
    change (str_eqb (lit "institution") (lit "institution")) with true in St. cbn [g_np g_val gstr negb andb] in St. rewrite Q, !replace_joined in St.
    injection St as <-. split; reflexivity. }
  split; [| split; [| split; [| split; [| split; [| split]]]]].
  - intros t J. refine (One _ _ kMNAME _ J eq_refl _ _); [cbn; tauto |]. intros s s' St. injection St as <-. reflexivity.
  - intros t J. refine (One _ _ kSNAME _ J eq_refl _ _); [cbn; tauto |]. intros s s' St. injection St as <-. reflexivity.
  - intros t J N. assert (Q : match institution_match t with Some p => p | None => (t, t) end = (t, t)) by (rewrite (no_mark _ N); reflexivity).
    split; [refine (One _ _ kONAME _ J eq_refl _ _) | refine (One _ _ kORG _ J eq_refl _ _)]; try (cbn; tauto); intros s s' St; apply (Inst _ _ _ _ _ Q St).
  - intros o r Sp J. assert (Q : match institution_match (na_institution o r) with Some p => p | None => (na_institution o r, na_institution o r) end = (o, r))
      by (rewrite (institution_found _ _ Sp); reflexivity).
    destruct Sp as (No & Nr & _). assert (G : d kONAME = Some (PStr (joined o)) /\ d kORG = Some (PStr (joined r))); [| rewrite (joined_one _ No), (joined_one _ Nr) in G; exact G].
    split; [refine (One _ _ kONAME _ J eq_refl _ _) | refine (One _ _ kORG _ J eq_refl _ _)]; try (cbn; tauto); intros s s' St; apply (Inst _ _ _ _ _ Q St).
  - apply Non; [reflexivity | cbn; tauto].
  - apply Non; [reflexivity | cbn; tauto].
  - intros N. split; apply (Non (lit "institution")); try reflexivity; try (cbn; tauto); exact N.
Qed.
Print Assumptions C80_names.

(** A dictionary with several lines of institution, and one from NASA Ames. *)
Definition names_of (globals : list (str * gval Z)) : list (list (option (pyv Z))) :=
  match convert env_Z None globals [var (lit "p") [] [ts] (data [1; 2]%Z)] with
  | Ok (Some cs) => map (fun c => match c_na c with Some d => map d [kONAME; kORG; kSNAME; kMNAME] | None => [] end) cs
  | _ => []
  end.
Example C80_example :
  names_of [(lit "institution", gstr (lit "British" ++ nl ++ lit "Centre")); (lit "title", gstr (lit "Test"))]
    = [[Some (PStr (lit "British  Centre")); Some (PStr (lit "British  Centre")); None; Some (PStr (lit "Test"))]] /\
  names_of [(lit "source", gstr (lit "Sonde")); (lit "institution", gstr (na_institution (lit "De Witt, B.") (lit "BADC")))]
    = [[Some (PStr (lit "De Witt, B.")); Some (PStr (lit "BADC")); Some (PStr (lit "Sonde")); None]].
Proof. split; vm_compute; reflexivity. Qed.

(** ** C81 *)
Lemma filter_all {A} (l : list A) : filter (fun _ => true) l = l.
Proof. induction l as [| x l IH]; [reflexivity |]. cbn [filter]. rewrite IH. reflexivity. Qed.
(** From a NASA Ames dictionary to variables and back: the four names are as they
    were (with any variables and settings in between, but no attributes of the
    caller). *)
Theorem C81_names : forall num (Num : NumOps num) (Ar : ArithOps num) (s : settings (num := num)) (d : na num) ob (E : env num) req vars cs c o r sn mn,
  toXarray s d = Ok ob -> t_globals s = [] ->
  attr d kONAME = PStr o -> attr d kORG = PStr r -> attr d kSNAME = PStr sn -> attr d kMNAME = PStr mn -> separable o r ->
  convert E req (file_attributes ob) vars = Ok (Some cs) -> In c cs ->
  exists d', c_na c = Some d' /\ d' kONAME = Some (PStr o) /\ d' kORG = Some (PStr r) /\ d' kSNAME = Some (PStr sn) /\ d' kMNAME = Some (PStr mn).
Proof.
  intros num Num Ar s d ob E req vars cs c o r sn mn X G0 A1 A2 A3 A4 Sp R I.
  destruct (toXarray_inv _ _ _ X) as (ffi & ren & axes & is & js & _ & _ & Hg & _). rewrite G0 in Hg.
  unfold mapNACommentsToGlobalAttributes in Hg. bindE Hg g Gg. cbn [mapR bindR] in Hg. apply Ok_inj in Hg.
  unfold glob_atts, institution in Gg. cbv zeta in Gg. rewrite A1, A2 in Gg. cbn [fmt_s bindR] in Gg. bindE Gg hist Hh. bindE Gg com Hc. apply Ok_inj in Gg.
  match type of Gg with fold_left _ ?l _ = _ => set (ten := l) in Gg end. change (dict_of_list ten = g) in Gg.
  assert (Nt : NoDup (map fst ten)). { unfold ten. cbn [map fst]. repeat (constructor; [cbn [In]; intuition discriminate |]). constructor. }
  rewrite (dict_of_nodup _ Nt) in Gg. subst g.
  assert (Ef : file_attributes ob = ten). { unfold file_attributes. rewrite <- Hg. cbn [app map mem_str]. rewrite filter_all. apply dict_of_nodup, Nt. }
  rewrite Ef in R.
  destruct (C80_names _ _ _ E _ _ _ _ _ Nt R I) as (d' & Nd' & T & S' & _ & In' & _).
  exists d'. split; [exact Nd' |].
  assert (J : In (lit "institution", gstr (na_institution o r)) ten /\ In (lit "source", gstr sn) ten /\ In (lit "title", gstr mn) ten).
  { unfold ten. rewrite A3, A4. split; [| split]; cbn [In]; [do 2 right; left | do 3 right; left | do 4 right; left]; reflexivity. }
  destruct J as (J1 & J2 & J3). destruct (In' _ _ Sp J1) as (K1 & K2). auto.
Qed.
Print Assumptions C81_names.
(** From a file to variables and back. *)
Definition there_and_back (content : str) (ks : list key) : list (list (pyv b64)) :=
  match converted plain_settings content with
  | Ok ob => match convert env_b None (file_attributes ob) (o_vars ob) with
             | Ok (Some cs) => map (fun c => match c_na c with Some d => map (attr d) ks | None => [] end) cs
             | _ => []
             end
  | Err _ => []
  end.
Example C81_example : there_and_back f_two [kONAME; kORG; kSNAME; kMNAME] = [map (fun s => PStr (lit s)) ["A, B"; "Org"; "Src"; "Mission"]%pylit] /\
  separable (lit "A, B") (lit "Org").
Proof.
  split; [vm_compute; reflexivity |]. split; [vm_compute; intuition discriminate |]. split; [vm_compute; intuition discriminate |].
  split; [intros c t Q; vm_compute in Q; injection Q as <- _; reflexivity |]. intros (a & b & Q).
  apply (f_equal (@length chr)) in Q. rewrite !app_length in Q.
  change (length (lit "Org")) with 3%nat in Q. change (length (lit "(ONAME from NASA Ames file);")) with 28%nat in Q. lia.
Qed.

(** ** C82 *)
Section Back.
Context {num : Type} {Num : NumOps num} {Ar : ArithOps num}.
Lemma main_time callback rename d axes i (v : xvar num) : convertMain callback rename d axes i = Ok v -> v_time v = None.
Proof.
  unfold convertMain, convertVariable. intros R. bindE R w Hw. bindE R vals Hv. bindE R scal Hs. destruct (array_shape vals); [| discriminate R].
  destruct (negb (nats_eqb l (map ax_len axes))); [discriminate R |]. cbv zeta in R. injection R as <-. reflexivity.
Qed.
Lemma scaled_cell (s : num) : forall p v x, cell v p = Some (PNum x) -> cell (scaled s v) p = Some (PNum (num_times x s)).
Proof.
  induction p as [| i p IH]; intros v x C; cbn [cell] in *; [injection C as ->; reflexivity |].
  destruct v as [| | | | l]; try discriminate C. cbn [scaled]. rewrite nth_error_map. destruct (nth_error l i) as [v |]; [| discriminate C].
  cbn [option_map]. exact (IH _ _ C).
Qed.
End Back.
(** A variable that was made from a NASA Ames dictionary, as a main variable of a
    dictionary again: the missing value is the same, the scale factor is 1, and
    every value has been multiplied by the scale factor. *)
Theorem C82_values : forall num (Num : NumOps num) (Ar : ArithOps num) (s : settings (num := num)) (d : na num) ob (E : env num) req globals vars cs c,
  toXarray s d = Ok ob -> convert E req globals vars = Ok (Some cs) -> In c cs ->
  exists d', c_na c = Some d' /\ forall j w, nth_error (c_main c) j = Some w -> In w (o_vars ob) ->
  exists i miss sv scal values,
    n_attr (v_info w) (lit "nasa_ames_var_number") = Some (gint (Z.of_nat i)) /\
    index (attr d kVMISS) i = Ok miss /\ index (attr d kVSCAL) i = Ok sv /\ number_is sv scal /\ index (attr d kV) i = Ok values /\
    cell (attr d' kVSCAL) [j] = Some (PInt 1) /\
    (forall m, miss = PNum m -> cell (attr d' kVMISS) [j] = Some miss /\
       forall p x, cell values p = Some (PNum x) ->
         cell (attr d' kV) (j :: p) = Some (PNum (if num_isnan (num_times x scal) then m else num_times x scal))).
Proof.
  intros num Num Ar s d ob E req globals vars cs c X R I.
  destruct (C75_values _ _ _ E _ _ _ _ _ R I) as (d' & es & Nd & F & _ & _ & Am & As & Av). exists d'. split; [exact Nd |]. intros j w Hj Iw.
  destruct (toXarray_inv _ _ _ X) as (ffi & ren & axes & is & js & _ & _ & _ & _ & _ & Hv & _).
  destruct (Forall2_in_r _ _ _ _ (mapR_Forall2 _ _ _ Hv) Iw) as (i & _ & Hi). assert (Ti := main_time _ _ _ _ _ _ Hi).
  destruct (main_inv _ _ _ _ _ _ Hi) as (miss & scal & vals & M & (sv & S1 & S2) & V & A & B & _ & D).
  exists i, miss, sv, scal, vals. split; [exact D |]. split; [exact M |]. split; [exact S1 |]. split; [exact S2 |]. split; [exact V |].
  destruct (Forall2_nth _ _ _ _ _ F Hj) as (e & He & Ee). rewrite As, Am, Av. unfold names, misses, scales, arrays. cbn [cell]. rewrite !nth_error_map, He. cbn [option_map].
  destruct e as [[[nm m] sc] vs]. destruct Ee as (_ & Em & -> & Ev). rewrite Ti in Ev. unfold missing_of in Em. rewrite A in Em. cbn [fst snd]. split; [reflexivity |].
  intros m0 ->. cbn in Em. subst m. split; [reflexivity |]. intros p x Px. rewrite B in Ev.
  rewrite (marked_cell _ _ _ _ _ Ev (scaled_cell scal _ _ _ Px)). destruct (num_isnan (num_times x scal)); reflexivity.
Qed.
Print Assumptions C82_values.
(** Scale factor 0.5: the values are multiplied, the missing value is not (see
    C54). *)
Example C82_example : there_and_back (file_1001 (lit "height (m)") (lit "0.5 1") (lit "-9999 -99") (map lit ["temp (K)"; "q (1)"]%pylit) (map lit ["0 280 -99"; "10 281 2"]%pylit))
    [kV; kVMISS; kVSCAL; kX] =
  [[PList [bdata [bf "140"; bf "140.5"]; bdata [bf "-99"; bf "2"]]; bdata [bf "-9999"; bf "-99"]; PList [PInt 1; PInt 1]; bdata [bf "0"; bf "10"]]].
Proof. vm_compute. reflexivity. Qed.
