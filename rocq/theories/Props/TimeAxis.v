(** C133: the axes of the converted file: names, types, units and the units of
    time. *)
From Coq Require Import List NArith ZArith Bool Lia.
From Verif Require Import Py.Str Py.Res Py.Num Py.Arith Model.Dict Model.CommonUtils Model.Utils Model.NAWrite Model.NARead Model.NACore Model.Normalize Spec.TextSpec
  Model.Xarray Model.Collector Model.ToXarray Spec.ToXarraySpec Spec.GridSpec Spec.CompareTreeSpec Spec.WholeNum Proofs.StrLemmas Proofs.ReadFrame Proofs.CollectorLemmas
  Props.ToXarrayProps Props.ToXarrayMore Proofs.Convertible Props.CompareTree.
Import ListNotations.

(** * What is said *)
(** A text that begins with  UNIT since Y-M-D: one or more letters, digits or
    underscores, white space, since, white space, one to four digits, and twice one
    or two digits after a minus. *)
Definition some_of (p : chr -> bool) (s : str) : Prop := s <> [] /\ Forall (fun c => p c = true) s.
Definition word_chr (c : chr) : Prop := is_digit c = true \/ (65 <= c <= 90)%N \/ (97 <= c <= 122)%N \/ c = c_us.
Definition since_date (s : str) : Prop := exists w b b' y m d rest,
  s = w ++ b ++ lit "since" ++ b' ++ y ++ lit "-" ++ m ++ lit "-" ++ d ++ rest /\
  w <> [] /\ Forall word_chr w /\ some_of is_space b /\ some_of is_space b' /\
  some_of is_digit y /\ (length y <= 4)%nat /\ some_of is_digit m /\ (length m <= 2)%nat /\ some_of is_digit d /\ (length d <= 2)%nat.

(** The name in the NetCDF file: every run of characters that are not allowed
    becomes one underscore, then lower case; a long name is replaced by a number. *)
Inductive underscored : str -> str -> Prop :=
| us_nil : underscored [] []
| us_safe c s t : ~ forbidden c -> underscored s t -> underscored (c :: s) (c :: t)
| us_run r s t : r <> [] -> Forall forbidden r -> (forall c s', s = c :: s' -> ~ forbidden c) -> underscored s t -> underscored (r ++ s) (c_us :: t).
Definition nc_axis_name (i : nat) (name raw : str) : Prop :=
  ((length name < 64)%nat -> exists t, underscored name t /\ raw = lower t) /\ ((64 <= length name)%nat -> raw = lit "naIndVariable_" ++ dec_of_nat i).
(** The first of the four words that is a part of the name. *)
Definition axis_words : list (str * str) := [(lit "longitude", lit "X"); (lit "latitude", lit "Y"); (lit "level", lit "Z"); (lit "time", lit "T")].
Definition is_kind (raw w l : str) : Prop := exists before after, axis_words = before ++ (w, l) :: after /\ part w (lower raw) /\
  forall w' l', In (w', l') before -> ~ part w' (lower raw).
(** The first text that is not empty. *)
Definition either (a b : str) : str := match a with [] => b | _ => a end.
Definition text_of (u : option str) : str := match u with Some s => s | None => [] end.

Section Said.
Context {num : Type}.
Definition known_time (units : option str) : Prop := exists u, units = Some u /\ since_date u.
(** [u]: the units to use for a time axis whose units are not recognised. *)
Definition described (callback : option (str -> str * option str)) (i : nat) (long : str) (u : option str) (a : axis num) : Prop :=
  exists name units raw, attemptVarAndUnitsMatch callback long = (name, units) /\ nc_axis_name i name raw /\
  (forall w l, is_kind raw w l -> n_name (ax_info a) = w /\ n_attr (ax_info a) (lit "standard_name") = Some (gstr w) /\ n_attr (ax_info a) (lit "axis") = Some (gstr l)) /\
  ((forall w l, ~ is_kind raw w l) -> n_name (ax_info a) = raw /\ n_attr (ax_info a) (lit "standard_name") = None /\ n_attr (ax_info a) (lit "axis") = None) /\
  n_attr (ax_info a) (lit "name") = Some (gstr (n_name (ax_info a))) /\
  (n_name (ax_info a) <> lit "time" \/ known_time units ->
    n_attr (ax_info a) (lit "long_name") = Some (gstr long) /\ n_enc_units (ax_info a) = [] /\
    n_attr (ax_info a) (lit "units") = Some (gstr (either (text_of units) (lit "Not known")))) /\
  (n_name (ax_info a) = lit "time" -> ~ known_time units -> exists t, u = Some t /\
    n_attr (ax_info a) (lit "long_name") = Some (gstr (lit "time (" ++ t ++ lit ")")) /\ n_enc_units (ax_info a) = t /\
    n_attr (ax_info a) (lit "units") = Some (gstr (either t (either (text_of units) (lit "Not known"))))).
(** Where these units come from: the caller, or nothing without a warning, or the
    first answer of the user that is empty or recognised. *)
Definition chosen (given : option str) (warning : bool) (answers : list str) (u : str) : Prop :=
  given = Some u \/
  given = None /\ warning = false /\ u = [] \/
  given = None /\ warning = true /\ exists wrong a rest, answers = wrong ++ a :: rest /\ u = strip a /\ (u = [] \/ since_date u) /\
    Forall (fun b => strip b <> [] /\ ~ since_date (strip b)) wrong.
End Said.

(** * The pattern *)
Lemma is_word_chr c : is_word c = true <-> word_chr c.
Proof.
  unfold is_word, word_chr. rewrite !orb_true_iff, !andb_true_iff, !N.leb_le, N.eqb_eq. tauto.
Qed.
Lemma drop_class_app p a b : Forall (fun c => p c = true) a -> (forall c t, b = c :: t -> p c = false) -> drop_class p (a ++ b) = b.
Proof.
  intros F N. induction F as [| c a Pc F IH]; cbn; [| rewrite Pc; exact IH]. destruct b as [| c t]; [reflexivity |]. cbn. rewrite (N c t eq_refl). reflexivity.
Qed.
Lemma drop_class_split p s : exists a, s = a ++ drop_class p s /\ Forall (fun c => p c = true) a.
Proof.
  induction s as [| c t (a & E & F)]; cbn; [exists []; auto |]. destruct (p c) eqn:Pc; [| exists []; auto].
  exists (c :: a). cbn. rewrite <- E. auto.
Qed.
Lemma many_iff p s r : many p s = Some r -> exists a, s = a ++ r /\ some_of p a.
Proof.
  destruct s as [| c t]; cbn; [discriminate |]. destruct (p c) eqn:Pc; [| discriminate]. intros Q. injection Q as <-.
  destruct (drop_class_split p t) as (a & E & F). exists (c :: a). cbn. rewrite <- E. split; [reflexivity |]. split; [discriminate | auto].
Qed.
Lemma many_app p a b : some_of p a -> (forall c t, b = c :: t -> p c = false) -> many p (a ++ b) = Some b.
Proof.
  intros (Na & F) N. destruct F as [| c a Pc F]; [congruence |]. cbn. rewrite Pc. f_equal. apply drop_class_app; assumption.
Qed.
Lemma drop_digits_split n : forall s, exists a, s = a ++ drop_digits n s /\ Forall (fun c => is_digit c = true) a /\ (length a <= n)%nat.
Proof.
  induction n as [| n IH]; intros s; [exists []; cbn; auto |]. destruct s as [| c t]; [exists []; cbn; repeat split; auto; lia |]. cbn [drop_digits].
  destruct (is_digit c) eqn:Pc; [| exists []; cbn; repeat split; auto; lia]. destruct (IH t) as (a & E & F & L). exists (c :: a). cbn. rewrite <- E. repeat split; auto. lia.
Qed.
Lemma digits_iff n s r : (0 < n)%nat -> digits n s = Some r -> exists a, s = a ++ r /\ some_of is_digit a /\ (length a <= n)%nat.
Proof.
  intros Hn. destruct s as [| c t]; cbn [digits]; [discriminate |]. destruct (is_digit c) eqn:Pc; [| discriminate]. intros Q. injection Q as <-.
  destruct (drop_digits_split (pred n) t) as (a & E & F & L). exists (c :: a). cbn [app length]. rewrite <- E. repeat split; auto; [discriminate | lia].
Qed.
Lemma drop_digits_app n : forall a b, Forall (fun c => is_digit c = true) a -> (length a <= n)%nat -> (forall c t, b = c :: t -> is_digit c = false) -> drop_digits n (a ++ b) = b.
Proof.
  induction n as [| n IH]; intros a b F L N.
  - destruct a; [reflexivity | cbn in L; lia].
  - destruct F as [| c a Pc F]; cbn [app drop_digits].
    + destruct b as [| c t]; [reflexivity |]. rewrite (N c t eq_refl). reflexivity.
    + rewrite Pc. apply IH; auto. cbn in L. lia.
Qed.
Lemma digits_app n a b : some_of is_digit a -> (length a <= n)%nat -> (forall c t, b = c :: t -> is_digit c = false) -> digits n (a ++ b) = Some b.
Proof.
  intros (Na & F) L N. destruct F as [| c a Pc F]; [congruence |]. cbn [app digits]. rewrite Pc. f_equal. apply drop_digits_app; auto. cbn in L. lia.
Qed.
Lemma literal_app p s : literal p (p ++ s) = Some s.
Proof. unfold literal. replace (starts_with p (p ++ s)) with true by (symmetry; apply starts_true; eauto). rewrite skipn_app, skipn_all, Nat.sub_diag. reflexivity. Qed.
Lemma literal_iff p s r : literal p s = Some r -> s = p ++ r.
Proof.
  unfold literal. destruct (starts_with p s) eqn:Q; [| discriminate]. intros K. injection K as <-. apply starts_true in Q as (t & ->).
  rewrite skipn_app, skipn_all, Nat.sub_diag. reflexivity.
Qed.
Lemma andthen_some {A B} (m : option A) (f : A -> option B) r : andthen m f = Some r -> exists a, m = Some a /\ f a = Some r.
Proof. destruct m; [eauto | discriminate]. Qed.
Lemma space_not_word c : is_space c = true -> is_word c = false.
Proof.
  intros S. destruct (is_word c) eqn:W; [| reflexivity]. apply is_word_chr in W. exfalso. unfold is_space in S. unfold word_chr, is_digit in W.
  rewrite ?orb_true_iff, ?andb_true_iff, ?N.leb_le, ?N.eqb_eq in *. unfold c_us in W. lia.
Qed.
Lemma digit_not_space c : is_digit c = true -> is_space c = false.
Proof.
  intros W. destruct (is_space c) eqn:S; [| reflexivity]. exfalso. apply space_not_word in S. unfold is_word in S. rewrite W in S. discriminate.
Qed.
Lemma head_of p q (a b : str) : some_of p a -> (forall c, p c = true -> q c = false) -> forall c t, a ++ b = c :: t -> q c = false.
Proof. intros (Na & F) Q c t E. destruct F as [| x a Px F]; [congruence |]. injection E as -> _. auto. Qed.

Theorem C133_pattern : forall s, is_time_units s = true <-> since_date s.
Proof.
  intros s. unfold is_time_units. split.
  - destruct (andthen (many is_word s) _) as [r |] eqn:E; [| discriminate]. intros _.
    apply andthen_some in E as (s1 & E1 & E). apply andthen_some in E as (s2 & E2 & E). apply andthen_some in E as (s3 & E3 & E).
    apply andthen_some in E as (s4 & E4 & E). apply andthen_some in E as (s5 & E5 & E). apply andthen_some in E as (s6 & E6 & E).
    apply andthen_some in E as (s7 & E7 & E). apply andthen_some in E as (s8 & E8 & E).
    apply many_iff in E1 as (w & -> & Nw & Fw). apply many_iff in E2 as (b & -> & Sb). apply literal_iff in E3 as ->. apply many_iff in E4 as (b' & -> & Sb').
    apply digits_iff in E5 as (y & -> & Sy & Ly); [| lia]. apply literal_iff in E6 as ->. apply digits_iff in E7 as (m & -> & Sm & Lm); [| lia]. apply literal_iff in E8 as ->.
    apply digits_iff in E as (d & -> & Sd & Ld); [| lia].
    exists w, b, b', y, m, d, r. split; [reflexivity |]. split; [exact Nw |]. split; [| auto 12].
    eapply Forall_impl; [| exact Fw]. intros c. apply is_word_chr.
  - intros (w & b & b' & y & m & d & rest & -> & Nw & Fw & Sb & Sb' & Sy & Ly & Sm & Lm & Sd & Ld).
    assert (Sw : some_of is_word w) by (split; [exact Nw |]; eapply Forall_impl; [| exact Fw]; intros c; apply is_word_chr).
    assert (Hl : forall q (p x : str) c0, p = [c0] -> q c0 = false -> forall c t, p ++ x = c :: t -> q c = false) by (intros q p x c0 -> Q c t K; injection K as <- _; exact Q).
    rewrite many_app; [| exact Sw | apply (head_of is_space); [exact Sb | exact space_not_word]]. cbn [andthen].
    rewrite many_app; [| exact Sb | intros c t K; injection K as <- _; reflexivity]. cbn [andthen].
    rewrite literal_app. cbn [andthen]. rewrite many_app; [| exact Sb' | apply (head_of is_digit); [exact Sy | exact digit_not_space]]. cbn [andthen].
    rewrite digits_app; [| exact Sy | exact Ly | eapply Hl; reflexivity]. cbn [andthen]. rewrite literal_app. cbn [andthen].
    rewrite digits_app; [| exact Sm | exact Lm | eapply Hl; reflexivity]. cbn [andthen]. rewrite literal_app. cbn [andthen].
    destruct Sd as (Nd & Fd). destruct Fd as [| c d Pc Fd]; [congruence |]. cbn [app digits]. rewrite Pc. reflexivity.
Qed.
Example C133_pattern_example : is_time_units (lit "seconds since 1999-01-08 00:00:00") = true /\ is_time_units (lit "days  since 12-1-1") = true /\
  is_time_units (lit "hours since midnight") = false /\ is_time_units (lit "s since 19990108") = false /\ is_time_units (lit "s") = false.
Proof. vm_compute. auto. Qed.
Print Assumptions C133_pattern.

(** * The names *)
Lemma sub_unsafe_spec : forall n s, (length s <= n)%nat ->
  underscored s (sub_unsafe false s) /\
  exists r s', s = r ++ s' /\ Forall forbidden r /\ (forall c t, s' = c :: t -> ~ forbidden c) /\ underscored s' (sub_unsafe true s).
Proof.
  induction n as [| n IH]; intros s L.
  { destruct s; [| cbn in L; lia]. split; [constructor |]. exists [], []. repeat split; auto; [| constructor]. discriminate. }
  destruct s as [| c s]. { split; [constructor |]. exists [], []. repeat split; auto; [| constructor]. discriminate. }
  cbn in L. destruct (IH s) as (A & r & s' & E & F & N & U); [lia |]. cbn [sub_unsafe]. destruct (unsafe c) eqn:Q.
  - apply unsafe_iff in Q. split.
    + rewrite E at 1. change (c :: r ++ s') with ((c :: r) ++ s'). apply us_run; auto. discriminate.
    + exists (c :: r), s'. cbn [app]. rewrite <- E. auto.
  - assert (Nc : ~ forbidden c) by (intros K; apply unsafe_iff in K; congruence). split; [now apply us_safe |].
    exists [], (c :: s). repeat split; auto; [| now apply us_safe]. intros c' t K. injection K as <- _. exact Nc.
Qed.
Lemma nc_name_spec i name : nc_axis_name i name (nc_name (lit "naIndVariable_") i name).
Proof.
  unfold nc_axis_name, nc_name. destruct (Nat.ltb_spec (length name) 64); split; intros K; try lia; [| reflexivity].
  exists (sub_unsafe false name). split; [| reflexivity]. apply (sub_unsafe_spec _ _ (le_n _)).
Qed.
Lemma find_first {A} (p : A -> bool) : forall l x, find p l = Some x -> exists a b, l = a ++ x :: b /\ p x = true /\ forall y, In y a -> p y = false.
Proof.
  induction l as [| z l IH]; intros x E; cbn in E; [discriminate |]. destruct (p z) eqn:Q.
  - injection E as <-. exists [], l. repeat split; auto. intros y [].
  - destruct (IH _ E) as (a & b & -> & Px & N). exists (z :: a), b. repeat split; auto. intros y [<- | I]; auto.
Qed.
Lemma kind_unique raw w l w' l' : is_kind raw w l -> is_kind raw w' l' -> w = w' /\ l = l'.
Proof.
  intros (a & b & E & P & N) (a' & b' & E' & P' & N').
  assert (K : forall (t : list (str * str)) a a' b b', t = a ++ (w, l) :: b -> t = a' ++ (w', l') :: b' ->
    (forall x y, In (x, y) a -> ~ part x (lower raw)) -> (forall x y, In (x, y) a' -> ~ part x (lower raw)) -> w = w' /\ l = l').
  { clear -P P'. induction t as [| z t IH]; intros a a' b b' E E' N N'; [destruct a; discriminate |].
    destruct a as [| z1 a], a' as [| z2 a']; cbn [app] in E, E'.
    - assert (Q : (w, l) = (w', l')) by congruence. split; congruence.
    - exfalso. injection E as -> _. injection E' as <- _. apply (N' w l); [left; reflexivity | exact P].
    - exfalso. injection E as <- _. injection E' as -> _. apply (N w' l'); [left; reflexivity | exact P'].
    - injection E as -> E. injection E' as _ E'. apply (IH a a' b b' E E'); [intros x y I; apply (N x y); right; exact I | intros x y I; apply (N' x y); right; exact I]. }
  exact (K _ _ _ _ _ E E' N N').
Qed.
Lemma axis_type_some raw w l : axis_type raw = Some (w, l) -> is_kind raw w l.
Proof.
  intros E. apply find_first in E as (a & b & E & P & N). exists a, b. split; [exact E |]. cbn [fst] in P. split; [apply contains_true; exact P |].
  intros w' l' I K. apply contains_true in K. apply N in I. cbn [fst] in I. congruence.
Qed.
Lemma axis_type_none raw : axis_type raw = None -> forall w l, ~ is_kind raw w l.
Proof.
  intros E w l (a & b & Q & P & _). apply contains_true in P. assert (I : In (w, l) axis_types) by (change axis_types with axis_words; rewrite Q; apply in_elt).
  pose proof (find_none _ _ E _ I) as K. cbn [fst] in K. congruence.
Qed.
Lemma kind_in raw w l : is_kind raw w l -> In (w, l) axis_words.
Proof. intros (a & b & Q & _). rewrite Q. apply in_elt. Qed.

(** * One axis *)
Lemma ask_spec answers u rest : ask answers = Ok (u, rest) -> exists wrong a, answers = wrong ++ a :: rest /\ u = strip a /\ (u = [] \/ since_date u) /\
    Forall (fun b => strip b <> [] /\ ~ since_date (strip b)) wrong.
Proof.
  induction answers as [| a t IH]; cbn [ask]; [discriminate |]. destruct (is_nil (strip a) || is_time_units (strip a)) eqn:Q.
  - intros K. injection K as <- <-. exists [], a. repeat split; auto. apply orb_prop in Q as [Q | Q]; [left; destruct (strip a); [reflexivity | discriminate] | right; now apply C133_pattern].
  - intros K. destruct (IH K) as (wrong & a' & -> & E & C & F). exists (a :: wrong), a'. repeat split; auto. constructor; [| exact F].
    apply orb_false_elim in Q as [Q1 Q2]. split; [intros Z; rewrite Z in Q1; discriminate | intros Z; apply C133_pattern in Z; congruence].
Qed.
Section Axis.
Context {num : Type} {Num : NumOps num} {Ar : ArithOps num}.
(** The units for time afterwards are the same for every later axis. *)
Lemma axis_described callback warning (d : na num) i k a k' : convertAxis callback warning d i k = Ok (a, k') ->
  (k' = k \/ exists u, k_units k' = Some u /\ chosen (k_units k) warning (k_answers k) u) /\
  exists long, index (attr d kXNAME) i = Ok (PStr long) /\ described callback i long (k_units k') a.
Proof.
  unfold convertAxis. intros E. bindE E niv Hn. bindE E arr Ha. bindE E vals Hv. bindE E xn Hx. bindE E long Hl.
  destruct xn as [| | | s |]; try discriminate Hl. injection Hl as ->.
  destruct (attemptVarAndUnitsMatch callback long) as [name units] eqn:Em.
  pose proof (nc_name_spec i name) as Raw. set (raw := nc_name (lit "naIndVariable_") i name) in *.
  assert (Kt : is_time_units (match units with Some u => u | None => lit "None" end) = true <-> known_time units).
  { destruct units as [u |]; [rewrite C133_pattern; unfold known_time; split; [eauto | intros (w & Q & K); congruence] |].
    split; [intros K; vm_compute in K; discriminate K | intros (w & Q & _); discriminate Q]. }
  set (r0 := match axis_type raw with
             | Some (t, l) => (t, dset (lit "axis") (gstr l) (dset (lit "standard_name") (gstr t) [(lit "long_name", gstr long); (lit "units", mkG false (units_pv units))]))
             | None => (raw, [(lit "long_name", gstr long); (lit "units", mkG false (units_pv units))])
             end) in E.
  assert (R0 : exists xname extra, r0 = (xname, (lit "long_name", gstr long) :: (lit "units", mkG false (units_pv units)) :: extra) /\
    ((exists w l, is_kind raw w l /\ xname = w /\ extra = [(lit "standard_name", gstr w); (lit "axis", gstr l)]) \/
     ((forall w l, ~ is_kind raw w l) /\ xname = raw /\ extra = []))).
  { unfold r0. destruct (axis_type raw) as [[w l] |] eqn:At.
    - exists w, [(lit "standard_name", gstr w); (lit "axis", gstr l)]. split; [reflexivity |]. left. exists w, l. split; [apply axis_type_some; exact At | auto].
    - exists raw, []. split; [reflexivity |]. right. split; [apply axis_type_none; exact At | auto]. }
  clearbody r0. destruct R0 as (xname & extra & -> & Kind). cbn iota in E.
  destruct (is_nil vals); [discriminate |]. bindE E r Hr. destruct r as [[at1 enc] k1]. injection E as <- <-.
  assert (Ex : forall u v, let at2 := (lit "long_name", u) :: (lit "units", v) :: extra ++ [(lit "name", gstr xname)] in
    lookup (lit "name") at2 = Some (gstr (num := num) xname) /\
    (forall w l, is_kind raw w l -> xname = w /\ lookup (lit "standard_name") at2 = Some (gstr w) /\ lookup (lit "axis") at2 = Some (gstr l)) /\
    ((forall w l, ~ is_kind raw w l) -> xname = raw /\ lookup (lit "standard_name") at2 = None /\ lookup (lit "axis") at2 = None)).
  { intros u v at2. destruct Kind as [(w & l & K & -> & ->) | (K & -> & ->)].
    - split; [reflexivity |]. split; [| intros Q; exfalso; exact (Q _ _ K)]. intros w' l' K'. destruct (kind_unique _ _ _ _ _ K K') as [<- <-]. split; [reflexivity |]. split; reflexivity.
    - split; [reflexivity |]. split; [intros w' l' K'; exfalso; exact (K _ _ K') |]. intros _. split; [reflexivity |]. split; reflexivity. }
  assert (Nm : forall u v, dset (lit "name") (gstr xname) ((lit "long_name", u) :: (lit "units", v) :: extra) = (lit "long_name", u) :: (lit "units", v) :: extra ++ [(lit "name", gstr (num := num) xname)]).
  { intros u v. destruct Kind as [(w & l & _ & _ & ->) | (_ & _ & ->)]; reflexivity. }
  set (time := str_eqb xname (lit "time")) in Hr. assert (Ht : time = true <-> xname = lit "time") by (apply str_eqb_eq). clearbody time.
  destruct (time && negb (is_time_units (match units with Some u => u | None => lit "None" end))) eqn:Q.
  - apply andb_prop in Q as [Qt Qu]. apply negb_true_iff in Qu.
    assert (Nk : ~ known_time units) by (intros K; apply Kt in K; congruence).
    bindE Hr q Hq. destruct q as [u rest]. cbn [fst snd] in Hr. injection Hr as <- <- <-. cbn [k_units].
    split.
    { right. exists u. split; [reflexivity |]. unfold chosen. destruct (k_units k) as [u0 |]; [left; congruence |]. right. destruct warning.
      - right. apply ask_spec in Hq as (wrong & a & Q). split; [reflexivity |]. split; [reflexivity |]. exists wrong, a, rest. exact Q.
      - left. injection Hq as <- _. auto. }
    exists long. split; [exact Hx |]. exists name, units, raw. split; [exact Em |]. split; [exact Raw |].
    change (dset (lit "long_name") (gstr (lit "time (" ++ u ++ lit ")")) (dset (lit "units") (gstr u)
              ((lit "long_name", gstr long) :: (lit "units", mkG false (units_pv units)) :: extra)))
      with ((lit "long_name", gstr (num := num) (lit "time (" ++ u ++ lit ")")) :: (lit "units", gstr u) :: extra).
    rewrite Nm. destruct (Ex (gstr (lit "time (" ++ u ++ lit ")")) (gstr (either u (either (text_of units) (lit "Not known"))))) as (X1 & X2 & X3).
    assert (Fin : forall l0 : list (str * gval num), l0 = (lit "long_name", gstr (lit "time (" ++ u ++ lit ")")) :: (lit "units", gstr (either u (either (text_of units) (lit "Not known")))) :: extra ++ [(lit "name", gstr xname)] ->
      (forall w l, is_kind raw w l -> xname = w /\ lookup (lit "standard_name") l0 = Some (gstr w) /\ lookup (lit "axis") l0 = Some (gstr l)) /\
      ((forall w l, ~ is_kind raw w l) -> xname = raw /\ lookup (lit "standard_name") l0 = None /\ lookup (lit "axis") l0 = None) /\
      lookup (lit "name") l0 = Some (gstr xname) /\
      (xname <> lit "time" \/ known_time units ->
        lookup (lit "long_name") l0 = Some (gstr long) /\ u = [] /\ lookup (lit "units") l0 = Some (gstr (either (text_of units) (lit "Not known")))) /\
      (xname = lit "time" -> ~ known_time units -> exists t, Some u = Some t /\
        lookup (lit "long_name") l0 = Some (gstr (lit "time (" ++ t ++ lit ")")) /\ u = t /\
        lookup (lit "units") l0 = Some (gstr (either t (either (text_of units) (lit "Not known")))))).
    { intros l0 ->. split; [exact X2 |]. split; [exact X3 |]. split; [exact X1 |]. split.
      - intros [K | K]; [exfalso; apply K, Ht; exact Qt | contradiction].
      - intros _ _. exists u. repeat split; reflexivity. }
    unfold n_attr. cbn [ax_info n_name n_attrs n_enc_units]. apply Fin. destruct u; [destruct units as [[| c t] |] |]; reflexivity.
  - injection Hr as <- <- <-. split; [left; reflexivity |]. exists long. split; [exact Hx |]. exists name, units, raw. split; [exact Em |]. split; [exact Raw |].
    rewrite Nm. destruct (Ex (gstr long) (gstr (either (text_of units) (lit "Not known")))) as (X1 & X2 & X3).
    assert (Fin : forall l0 : list (str * gval num), l0 = (lit "long_name", gstr long) :: (lit "units", gstr (either (text_of units) (lit "Not known"))) :: extra ++ [(lit "name", gstr xname)] ->
      (forall w l, is_kind raw w l -> xname = w /\ lookup (lit "standard_name") l0 = Some (gstr w) /\ lookup (lit "axis") l0 = Some (gstr l)) /\
      ((forall w l, ~ is_kind raw w l) -> xname = raw /\ lookup (lit "standard_name") l0 = None /\ lookup (lit "axis") l0 = None) /\
      lookup (lit "name") l0 = Some (gstr xname) /\
      (xname <> lit "time" \/ known_time units ->
        lookup (lit "long_name") l0 = Some (gstr long) /\ @nil chr = [] /\ lookup (lit "units") l0 = Some (gstr (either (text_of units) (lit "Not known")))) /\
      (xname = lit "time" -> ~ known_time units -> exists t, k_units k = Some t /\
        lookup (lit "long_name") l0 = Some (gstr (lit "time (" ++ t ++ lit ")")) /\ [] = t /\
        lookup (lit "units") l0 = Some (gstr (either t (either (text_of units) (lit "Not known")))))).
    { intros l0 ->. split; [exact X2 |]. split; [exact X3 |]. split; [exact X1 |]. split.
      - intros _. repeat split; reflexivity.
      - intros K1 K2. exfalso. apply Ht in K1. rewrite K1 in Q. cbn [andb] in Q. apply negb_false_iff in Q. apply K2, Kt, Q. }
    unfold n_attr. cbn [ax_info n_name n_attrs n_enc_units]. apply Fin. destruct units as [[| c t] |]; reflexivity.
Qed.

(** * All axes of a file *)
Definition settled (warning : bool) (k0 k : asked) : Prop := k = k0 \/ exists u, k_units k = Some u /\ chosen (k_units k0) warning (k_answers k0) u.
Lemma described_mono callback i long u u' (a : axis num) : (forall t, u = Some t -> u' = Some t) -> described callback i long u a -> described callback i long u' a.
Proof.
  intros M (name & units & raw & A & B & C & D & F & G & H). exists name, units, raw. split; [exact A |]. split; [exact B |]. split; [exact C |]. split; [exact D |].
  split; [exact F |]. split; [exact G |]. intros K1 K2. destruct (H K1 K2) as (t & Q & R). exists t. split; [apply M; exact Q | exact R].
Qed.
Lemma settled_step warning k0 k k' : settled warning k0 k -> (k' = k \/ exists u, k_units k' = Some u /\ chosen (k_units k) warning (k_answers k) u) ->
  settled warning k0 k' /\ forall t, k_units k = Some t -> k_units k' = Some t.
Proof.
  intros S [-> | (u & Ku & C)]; [auto |].
  assert (M : forall t, k_units k = Some t -> k_units k' = Some t).
  { intros t Kt. destruct C as [C | [(C & _) | (C & _)]]; congruence. }
  split; [| exact M]. destruct S as [-> | (u0 & K0 & C0)]; [right; exists u; auto | right; exists u0; auto].
Qed.
Lemma axes_described callback warning (d : na num) k0 : forall n a acc k as0 k1, settled warning k0 k -> axes_loop callback warning d (seq a n) (acc, k) = Ok (as0, k1) ->
  settled warning k0 k1 /\ (forall t, k_units k = Some t -> k_units k1 = Some t) /\
  exists as', as0 = acc ++ as' /\ length as' = n /\ forall i x, nth_error as' i = Some x ->
    exists long, index (attr d kXNAME) (a + i) = Ok (PStr long) /\ described callback (a + i) long (k_units k1) x.
Proof.
  induction n as [| n IH]; intros a acc k as0 k1 S E.
  - cbn in E. injection E as <- <-. split; [exact S |]. split; [auto |]. exists []. rewrite app_nil_r. repeat split. intros [| i] x I; discriminate.
  - cbn [seq axes_loop forR fst snd] in E. destruct (convertAxis callback warning d a k) as [[x k2] |] eqn:E1; cbn [bindR fst snd] in E; [| discriminate].
    destruct (axis_described _ _ _ _ _ _ _ E1) as (St & long & Hl & De). destruct (settled_step _ _ _ _ S St) as (S2 & M).
    destruct (IH _ _ _ _ _ S2 E) as (S3 & M2 & as' & -> & L & A). split; [exact S3 |]. split; [auto |]. exists (x :: as'). rewrite <- app_assoc. split; [reflexivity |].
    split; [cbn; congruence |]. intros [| i] y I; cbn in I.
    + injection I as <-. rewrite Nat.add_0_r. exists long. split; [exact Hl |]. exact (described_mono _ _ _ _ _ _ M2 De).
    + rewrite Nat.add_succ_r. exact (A i y I).
Qed.
Lemma normalize_axis_xname i (d d' : na num) : normalize_axis i d = Ok d' -> attr d' kXNAME = attr d kXNAME.
Proof.
  unfold normalize_axis. intros E. bindE E a Ha. bindE E b Hb. bindE E c Hc. destruct c; [injection E as <-; reflexivity |]. bindE E n Hn. bindE E X HX. injection E as <-.
  unfold attr. rewrite upd_other by discriminate. reflexivity.
Qed.
Lemma normalized_xname (d d' : na num) : normalized d = Ok d' -> attr d' kXNAME = attr d kXNAME.
Proof.
  unfold normalized. intros E. bindE E ffi Hf. destruct (ffi =? 1020)%Z.
  - unfold normalizeIndVars_1020 in E. bindE E x0 H0. bindE E l H1. bindE E nv H2. bindE E nX H3. bindE E X H4. injection E as <-. unfold attr. rewrite upd_other by discriminate. reflexivity.
  - destruct (existsb _ _); [| injection E as <-; reflexivity]. unfold normalizeIndVars_2010 in E. bindE E niv Hn.
    assert (G : forall l (d d' : na num), forR l normalize_axis d = Ok d' -> attr d' kXNAME = attr d kXNAME).
    { clear. induction l as [| i l IH]; intros d d' E; cbn [forR] in E; [injection E as <-; reflexivity |].
      destruct (normalize_axis i d) as [d1 |] eqn:E1; cbn [bindR] in E; [| discriminate]. rewrite <- (normalize_axis_xname _ _ _ E1). auto. }
    exact (G _ _ _ E).
Qed.
End Axis.

(** The axes of every converted variable are those of the independent variables;
    one choice of units serves all time axes whose units are not recognised. *)
Theorem C133_axes_partial : forall num (Num : NumOps num) (Ar : ArithOps num) (s : settings (num := num)) d o, toXarray s d = Ok o ->
  exists u, (forall t, u = Some t -> chosen (t_units s) (t_warning s) (t_answers s) t) /\
  forall v, In v (o_vars o ++ o_aux o) -> forall i a, nth_error (v_axes v) i = Some a ->
    exists long, index (attr d kXNAME) i = Ok (PStr long) /\ described (t_callback s) i long u a.
Proof.
  intros num Num Ar s d o R. destruct (toXarray_inv _ _ _ R) as (ffi & ren & axes & is & js & _ & _ & _ & Hax & _ & Hv & Hx & _).
  unfold convertAxes in Hax. bindE Hax niv Hn. bindE Hax d1 Hd. bindE Hax r Hr. destruct r as [as0 k1]. cbn [fst] in Hax. injection Hax as ->.
  set (k0 := mkAsked (t_units s) (t_answers s)) in *.
  destruct (axes_described (t_callback s) (t_warning s) d1 k0 (Z.to_nat niv) 0 [] k0 axes k1) as (S & _ & as' & Q & _ & A); [left; reflexivity | exact Hr |]. cbn [app] in Q. subst as'.
  assert (Xn : attr d1 kXNAME = attr d kXNAME) by (destruct (0 <? niv)%Z; [exact (normalized_xname _ _ Hd) | injection Hd as <-; reflexivity]).
  rewrite Xn in A. exists (match k1 with mkAsked u _ => if t_units s then t_units s else u end).
  assert (U : forall t, k_units k1 = Some t -> (match k1 with mkAsked u _ => if t_units s then t_units s else u end) = Some t).
  { intros t Kt. destruct k1 as [u1 an1]. cbn in Kt. subst u1. destruct (t_units s) as [u0 |] eqn:Et; [| reflexivity].
    destruct S as [S | (u & Ku & C)]; [injection S as S _; congruence |]. cbn in Ku, C. injection Ku as ->. destruct C as [C | [(C & _) | (C & _)]]; congruence. }
  split.
  { intros t Et. destruct k1 as [u1 an1]. cbn in *. destruct (t_units s) as [u0 |] eqn:Eu; [left; exact Et |].
    destruct S as [S | (u & Ku & C)]; [injection S as S _; congruence |]. cbn in Ku. assert (u = t) by congruence. subst u. exact C. }
  intros v I i a Ia.
  assert (P : exists l, v_axes v = firstn l axes).
  { apply in_app_iff in I as [I | I].
    - destruct (Forall2_in_r _ _ _ _ (mapR_Forall2 _ _ _ Hv) I) as (j & _ & Hj). unfold convertMain in Hj.
      destruct (convertVariable_inv _ _ _ _ _ _ _ _ _ Hj) as (w & vals & scal & _ & _ & _ & _ & _ & Q & _); try (intros K; vm_compute in K; discriminate K).
      exists (length axes). rewrite firstn_all. exact Q.
    - destruct (Forall2_in_r _ _ _ _ (mapR_Forall2 _ _ _ Hx) I) as (j & _ & Hj). unfold convertAux in Hj.
      destruct (convertVariable_inv _ _ _ _ _ _ _ _ _ Hj) as (w & vals & scal & _ & _ & _ & _ & _ & Q & _); try (intros K; vm_compute in K; discriminate K).
      exists 1%nat. exact Q. }
  destruct P as (l & P). rewrite P in Ia. assert (Ia' : nth_error axes i = Some a).
  { clear -Ia. revert axes i Ia. induction l as [| l IH]; intros [| x axes] [| i] E; cbn in *; try discriminate; auto. }
  destruct (A i a Ia') as (long & Hl & De). exists long. split; [exact Hl |]. exact (described_mono _ _ _ _ _ _ U De).
Qed.
Print Assumptions C133_axes_partial.

(** The values are an array of numbers with one dimension for each axis. *)
Lemma shape_array {num} : forall (v : pyv num) l, array_shape v = Some l -> num_array l v.
Proof.
  fix IH 1. intros [| z | x | t | [| x t]] l E; try discriminate E; cbn [array_shape] in E.
  - injection E as <-. cbn. eauto.
  - injection E as <-. cbn. exists []. auto.
  - destruct (array_shape x) as [sx |] eqn:Ex; [| discriminate]. destruct (forallb _ t) eqn:F; [| discriminate]. injection E as <-.
    cbn [num_array]. exists (x :: t). split; [reflexivity |]. split; [reflexivity |]. constructor; [apply IH; exact Ex |].
    revert F. clear -IH. induction t as [| y t It]; intros F; constructor; cbn [forallb] in F; apply andb_prop in F as [F1 F2]; [| apply It; exact F2].
    apply IH. destruct (array_shape y) as [sy |]; [| discriminate]. apply nats_eqb_true in F1. congruence.
Qed.
Lemma scaled_array {num} {Ar : ArithOps num} (s : num) : forall l v, num_array l v -> num_array l (scaled s v).
Proof.
  induction l as [| n l IH]; intros v H; cbn [num_array] in *.
  - destruct H as (x & ->). cbn. eauto.
  - destruct H as (vs & -> & L & F). cbn [scaled]. exists (map (scaled s) vs). split; [reflexivity |]. split; [rewrite map_length; exact L |].
    clear L. induction F; cbn [map]; constructor; auto.
Qed.
Theorem C133_shape : forall num (Num : NumOps num) (Ar : ArithOps num) (s : settings (num := num)) d o v, toXarray s d = Ok o -> In v (o_vars o ++ o_aux o) ->
  num_array (map ax_len (v_axes v)) (v_data v).
Proof.
  intros num Num Ar s d o v R I. destruct (toXarray_inv _ _ _ R) as (ffi & ren & axes & is & js & _ & _ & _ & Hax & _ & Hv & Hx & _).
  apply in_app_iff in I as [I | I].
  - destruct (Forall2_in_r _ _ _ _ (mapR_Forall2 _ _ _ Hv) I) as (j & _ & Hj). unfold convertMain in Hj.
    destruct (convertVariable_inv _ _ _ _ _ _ _ _ _ Hj) as (w & vals & scal & _ & _ & _ & _ & Ed & Ea & _ & Es & _); try (intros K; vm_compute in K; discriminate K).
    rewrite Ed, Ea. apply scaled_array, shape_array, Es.
  - destruct (Forall2_in_r _ _ _ _ (mapR_Forall2 _ _ _ Hx) I) as (j & _ & Hj). unfold convertAux in Hj.
    destruct (convertVariable_inv _ _ _ _ _ _ _ _ _ Hj) as (w & vals & scal & _ & _ & _ & _ & Ed & Ea & _ & Es & _); try (intros K; vm_compute in K; discriminate K).
    rewrite Ed, Ea. apply scaled_array, shape_array, Es.
Qed.
Print Assumptions C133_shape.

From Verif Require Import Spec.Binary64.
(** A file of two independent variables with the given names. *)
Definition f_2010 (x y : str) : str := unlines (lit "20 2010" :: map lit ["A, B"; "Org"; "Src"; "Mission"; "1 1"; "1999 1 1 2000 2 2"; "0 1"; "2"; "2"; "5 6"]%pylit ++
  [y; x] ++ map lit ["1"; "1"; "-9999"; "temp (K)"; "0"; "0"; "0"; "0"; "1 2"]%pylit).
Definition shown (a : axis b64) : str * list (option (gval b64)) := (n_name (ax_info a), map (fun k => n_attr (ax_info a) k) (map lit ["long_name"; "units"; "axis"]%pylit)).
Definition axes_of (r : Res (objects (num := b64))) : Res (list (list (str * list (option (gval b64))))) :=
  (do o <- r; Ok (map (fun v => map shown (v_axes v)) (o_vars o)))%res.
Definition asking (u : option str) (answers : list str) : settings (num := b64) := mkSet SAll SAll [] u true answers [] None (lit "2024-01-01 00:00:00") (lit "2.0").
(** Units that are recognised; units of the caller; the second answer of the user. *)
Example C133_example :
  axes_of (converted plain_settings (f_2010 (lit "Latitude (deg N)") (lit "Time (s since 1999-1-1)"))) =
    Ok [[(lit "latitude", [Some (gstr (lit "Latitude (deg N)")); Some (gstr (lit "deg N")); Some (gstr (lit "Y"))]);
         (lit "time", [Some (gstr (lit "Time (s since 1999-1-1)")); Some (gstr (lit "s since 1999-1-1")); Some (gstr (lit "T"))])]] /\
  axes_of (converted (asking (Some (lit "days since 1999-1-1")) []) (f_2010 (lit "Pressure - lower end (hPa)") (lit "Time (d)"))) =
    Ok [[(lit "pressure_lower_end", [Some (gstr (lit "Pressure - lower end (hPa)")); Some (gstr (lit "hPa")); None]);
         (lit "time", [Some (gstr (lit "time (days since 1999-1-1)")); Some (gstr (lit "days since 1999-1-1")); Some (gstr (lit "T"))])]] /\
  axes_of (converted (asking None (map lit ["days"; " days since 1999-1-1"; "s since 1-1-1"]%pylit)) (f_2010 (lit "x") (lit "Time (d)"))) =
    Ok [[(lit "x", [Some (gstr (lit "x")); Some (gstr (lit "Not known")); None]);
         (lit "time", [Some (gstr (lit "time (days since 1999-1-1)")); Some (gstr (lit "days since 1999-1-1")); Some (gstr (lit "T"))])]].
Proof. vm_compute. auto. Qed.
(** False of the code: two independent variables can become axes of one name, and
    the name of a time axis is lost when its units are not recognised. *)
Theorem C133_refuted : exists content d o v a b,
  read_file (num := b64) content 0 = Ok (C2010, d) /\ toXarray plain_settings d = Ok o /\ o_vars o = [v] /\ v_axes v = [a; b] /\
  attr d kXNAME = PList [PStr (lit "Time after launch (s)"); PStr (lit "Local time (h)")] /\
  n_name (ax_info a) = lit "time" /\ n_name (ax_info b) = lit "time" /\
  n_attr (ax_info a) (lit "long_name") = Some (gstr (lit "time ()")) /\ n_attr (ax_info a) (lit "units") = Some (gstr (lit "s")) /\
  n_attr (ax_info b) (lit "long_name") = Some (gstr (lit "time ()")) /\ n_attr (ax_info b) (lit "units") = Some (gstr (lit "h")).
Proof.
  exists (f_2010 (lit "Time after launch (s)") (lit "Local time (h)")).
  assert (K : match read_file (num := b64) (f_2010 (lit "Time after launch (s)") (lit "Local time (h)")) 0 with
              | Ok (C2010, d) => match toXarray plain_settings d with
                                 | Ok o => match o_vars o with
                                           | [v] => match v_axes v with
                                                    | [a; b] => (attr d kXNAME, shown a, shown b) =
                                                      (PList [PStr (lit "Time after launch (s)"); PStr (lit "Local time (h)")],
                                                       (lit "time", [Some (gstr (lit "time ()")); Some (gstr (lit "s")); Some (gstr (lit "T"))]),
                                                       (lit "time", [Some (gstr (lit "time ()")); Some (gstr (lit "h")); Some (gstr (lit "T"))]))
                                                    | _ => False
                                                    end
                                           | _ => False
                                           end
                                 | Err _ => False
                                 end
              | _ => False
              end) by (vm_compute; reflexivity).
  destruct (read_file (num := b64) _ 0) as [[c d] |]; [| destruct K]. destruct c; try (destruct K; fail). destruct (toXarray plain_settings d) as [o |] eqn:E; [| destruct K].
  destruct (o_vars o) as [| v [| v' t]] eqn:Ev; try (destruct K; fail). destruct (v_axes v) as [| a [| b [| c t]]] eqn:Ea; try (destruct K; fail).
  exists d, o, v, a, b. pose proof (f_equal (fun p => fst (fst p)) K) as K1. pose proof (f_equal (fun p => snd (fst p)) K) as K2. pose proof (f_equal snd K) as K3. cbn [fst snd] in K1, K2, K3.
  unfold shown in K2, K3. pose proof (f_equal fst K2) as A1. pose proof (f_equal snd K2) as A2. pose proof (f_equal fst K3) as B1. pose proof (f_equal snd K3) as B2. cbn [fst snd map] in A1, A2, B1, B2.
  pose proof (f_equal (fun l => nth 0 l None) A2) as A3. pose proof (f_equal (fun l => nth 1 l None) A2) as A4. pose proof (f_equal (fun l => nth 0 l None) B2) as B3. pose proof (f_equal (fun l => nth 1 l None) B2) as B4.
  auto 20.
Qed.
Print Assumptions C133_refuted.
