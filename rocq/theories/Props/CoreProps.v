(** Properties C35 to C37: the getters and the dictionary of an object
    (nappy/na_file/na_core.py). *)
From Coq Require Import List NArith ZArith Bool Lia.
From Verif Require Import Py.Str Py.Res Py.Num Model.Dict Model.TextParser Model.CommonUtils Model.NARead
  Model.NACore Spec.TextSpec Spec.Records Spec.ZNum Spec.WholeNum Spec.RecordSamples
  Proofs.StrLemmas Proofs.TextLemmas Proofs.ReadFrame Props.UtilProps.
Import ListNotations.

(** * C35 *)
Lemma cut_at_some d s a b : cut_at d s = Some (a, b) -> s = a ++ d :: b /\ ~ In d a.
Proof.
  revert a b. induction s as [|c s IH]; cbn; [discriminate|]. intros a b.
  destruct (N.eqb_spec c d) as [-> | Hn].
  - intros E. injection E as <- <-. auto.
  - destruct (cut_at d s) as [[a' b']|]; [|discriminate]. intros E. injection E as <- <-.
    destruct (IH a' b' eq_refl) as [-> H2]. split; [reflexivity|]. intros [E | Hi]; [congruence|contradiction].
Qed.
Lemma cut_at_none d s : cut_at d s = None <-> ~ In d s.
Proof.
  induction s as [|c s IH]; cbn; [tauto|]. destruct (N.eqb_spec c d) as [-> | Hn]; [split; [discriminate|tauto]|].
  destruct (cut_at d s) as [[a b]|]; [|tauto]. split; [discriminate|]. intros Hi. exfalso.
  assert (E : Some (a, b) = None) by (apply IH; tauto). discriminate.
Qed.
Lemma cut_at_app d a b : ~ In d a -> cut_at d (a ++ d :: b) = Some (a, b).
Proof.
  induction a as [|c a IH]; cbn; intros Hi; [now rewrite N.eqb_refl|].
  destruct (N.eqb_spec c d); [exfalso; auto|]. now rewrite IH by tauto.
Qed.
Lemma match_par_some s v1 u v2 : match_par s = Some (v1, u, v2) ->
  s = v1 ++ [c_lpar] ++ u ++ [c_rpar] ++ v2 /\ u <> [].
Proof.
  revert v1 u v2. induction s as [|c s IH]; cbn [match_par]; [discriminate|]. intros v1 u v2.
  destruct (match_par s) as [[[a b] e]|].
  - intros E. injection E as <- <- <-. destruct (IH a b e eq_refl) as [-> Hu]. auto.
  - destruct (N.eqb_spec c c_lpar) as [-> | _]; [|discriminate]. destruct s as [|d t]; [discriminate|].
    destruct (cut_at c_rpar t) as [[a b]|] eqn:E; [|discriminate]. intros K. injection K as <- <- <-.
    apply cut_at_some in E as [-> _]. split; [reflexivity|discriminate].
Qed.
Lemma match_par_none s : ~ In c_lpar s -> match_par s = None.
Proof.
  induction s as [|c s IH]; cbn [match_par]; intros Hi; [reflexivity|]. rewrite IH by (intros K; apply Hi; now right).
  destruct (N.eqb_spec c c_lpar) as [-> | _]; [|reflexivity]. exfalso. apply Hi. now left.
Qed.
Lemma match_par_one v1 u v2 : ~ In c_lpar v1 -> ~ In c_lpar u -> ~ In c_lpar v2 -> ~ In c_rpar u -> u <> [] ->
  match_par (v1 ++ [c_lpar] ++ u ++ [c_rpar] ++ v2) = Some (v1, u, v2).
Proof.
  intros H1 H2 H3 H4 Hu. induction v1 as [|c v1 IH].
  - cbn [app match_par]. rewrite match_par_none.
    2:{ intros K. apply in_app_or in K as [K | [K | K]]; [auto|discriminate|auto]. }
    rewrite N.eqb_refl. destruct u as [|d u]; [congruence|]. cbn [app].
    rewrite cut_at_app by (intros K; apply H4; now right). reflexivity.
  - cbn [app match_par]. cbn [app] in IH. rewrite IH by (intros K; apply H1; now right). reflexivity.
Qed.
Lemma blank_all_sp s : blank s <-> all_sp s = true.
Proof. unfold blank. now rewrite Forall_forall, forallb_forall. Qed.
Lemma strip_spaces a s b : blank a -> blank b -> strip (a ++ s ++ b) = strip s.
Proof. intros Ha Hb. apply strip_surround; now apply blank_all_sp. Qed.

(** No parenthesis. *)
Definition no_par (s : str) : Prop := ~ In c_lpar s /\ ~ In c_rpar s.

(** For 'name (units)' with nothing else in parentheses, on one line and
    possibly with white space around it, the result is the trimmed name and
    the units. *)
Theorem C35_name_and_units : forall a name units b : str,
  blank a -> blank b -> no_par name -> no_par units -> units <> [] -> ~ In c_nl name -> ~ In c_nl units ->
  attemptVarAndUnitsMatch None (a ++ name ++ [c_lpar] ++ units ++ [c_rpar] ++ b) = (strip name, Some units).
Proof.
  intros a name units b Ha Hb [N1 N2] [U1 U2] Hu Nn Nu. unfold attemptVarAndUnitsMatch, var_units_match. cbv zeta.
  assert (Hsp : forall c, is_space c = true -> c <> c_lpar /\ c <> c_rpar).
  { intros c Hc. split; intros ->; discriminate. }
  assert (Hb' : no_par b).
  { unfold blank in Hb. rewrite Forall_forall in Hb. split; intros K; apply Hb, Hsp in K; tauto. }
  destruct Hb' as [B1 B2].
  unfold lstrip. rewrite lstrip_by_app by now apply blank_all_sp.
  destruct (lstrip_by_decomp is_space name) as (p & Hp & En & Hh).
  assert (El : lstrip_by is_space (name ++ [c_lpar] ++ units ++ [c_rpar] ++ b) =
               lstrip_by is_space name ++ [c_lpar] ++ units ++ [c_rpar] ++ b).
  { rewrite En at 1. rewrite <- app_assoc, lstrip_by_app by exact Hp.
    destruct (lstrip_by is_space name) as [|c t]; [reflexivity|]. cbn [app]. now apply lstrip_by_head. }
  rewrite El. set (n' := lstrip_by is_space name) in *.
  assert (Hn' : forall c, ~ In c name -> ~ In c n') by (intros c Hc K; apply Hc; rewrite En; apply in_or_app; auto).
  assert (Ename : strip name = strip n').
  { rewrite En. rewrite strip_sp_app by exact Hp. reflexivity. }
  (* the line break, if any, is in [b] *)
  assert (Hres : forall b1, ~ In c_lpar b1 -> blank b1 ->
    (let (y, v2) := (n', units, b1) in let (v1, u) := y in (strip (v1 ++ lit " " ++ v2), Some u)) = (strip name, Some units)).
  { intros b1 _ Hb1. f_equal. rewrite Ename. rewrite app_assoc. rewrite <- (app_nil_l (_ ++ _)). rewrite app_assoc.
    rewrite <- !app_assoc. cbn [app]. apply strip_app_sp. cbn [lit]. apply blank_all_sp in Hb1.
    cbn. exact Hb1. }
  destruct (cut_at c_nl b) as [[b1 b2]|] eqn:Eb.
  - pose proof (cut_at_some _ _ _ _ Eb) as [-> Hb1].
    assert (Ec : cut_at c_nl (n' ++ [c_lpar] ++ units ++ [c_rpar] ++ b1 ++ c_nl :: b2) =
                 Some (n' ++ [c_lpar] ++ units ++ [c_rpar] ++ b1, b2)).
    { replace (n' ++ [c_lpar] ++ units ++ [c_rpar] ++ b1 ++ c_nl :: b2)
        with ((n' ++ [c_lpar] ++ units ++ [c_rpar] ++ b1) ++ c_nl :: b2) by now rewrite <- !app_assoc.
      apply cut_at_app. intros K. repeat (apply in_app_or in K as [K | K]); auto.
      - now apply (Hn' c_nl) in K.
      - destruct K as [K | []]. discriminate.
      - destruct K as [K | []]. discriminate. }
    rewrite Ec. apply Forall_app in Hb as [Hb1' Hb2]. apply Forall_inv_tail in Hb2 as Hb2'.
    rewrite (strip_all_sp b2) by now apply blank_all_sp. cbn [is_nil].
    rewrite match_par_one; auto; [apply Hres; auto|..].
    all: intros K; apply B1; apply in_or_app; now left.
  - apply cut_at_none in Eb.
    assert (Ec : cut_at c_nl (n' ++ [c_lpar] ++ units ++ [c_rpar] ++ b) = None).
    { apply cut_at_none. intros K. repeat (apply in_app_or in K as [K | K]); auto.
      - now apply (Hn' c_nl) in K.
      - destruct K as [K | []]. discriminate.
      - destruct K as [K | []]. discriminate. }
    rewrite Ec. rewrite match_par_one; auto.
Qed.
(** Without an opening parenthesis: the trimmed item and no units. *)
Theorem C35_no_units : forall item : str, ~ In c_lpar item -> attemptVarAndUnitsMatch None item = (strip item, None).
Proof.
  intros item Hi. unfold attemptVarAndUnitsMatch, var_units_match. cbv zeta.
  destruct (lstrip_by_decomp is_space item) as (p & Hp & En & _).
  assert (Hl : ~ In c_lpar (lstrip item)).
  { intros K. apply Hi. rewrite En. apply in_or_app. auto. }
  destruct (cut_at c_nl (lstrip item)) as [[l t]|] eqn:E; [|now rewrite match_par_none].
  destruct (is_nil (strip t)); [|reflexivity]. rewrite match_par_none; [reflexivity|].
  apply cut_at_some in E as [E _]. rewrite E in Hl. intros K. apply Hl. apply in_or_app. auto.
Qed.
(** For every item nothing but white space is lost: either the whole trimmed
    item is the name, or the item is two pieces with the units in parentheses
    between them, and the name consists of the two pieces. *)
Theorem C35_nothing_lost : forall item : str,
  attemptVarAndUnitsMatch None item = (strip item, None) \/
  exists a v1 u v2 b, blank a /\ blank b /\ u <> [] /\
    item = a ++ v1 ++ [c_lpar] ++ u ++ [c_rpar] ++ v2 ++ b /\
    attemptVarAndUnitsMatch None item = (strip (v1 ++ lit " " ++ v2), Some u).
Proof.
  intros item. unfold attemptVarAndUnitsMatch.
  destruct (var_units_match item) as [[[v1 u] v2]|] eqn:E; [right|now left].
  unfold var_units_match in E. cbv zeta in E.
  destruct (lstrip_by_decomp is_space item) as (p & Hp & En & _). apply blank_all_sp in Hp.
  fold (lstrip item) in En.
  destruct (cut_at c_nl (lstrip item)) as [[l t]|] eqn:Ec.
  - destruct (is_nil (strip t)) eqn:Et; [|discriminate]. apply is_nil_true, strip_nil_iff, blank_all_sp in Et.
    apply match_par_some in E as [E Hu]. apply cut_at_some in Ec as [Ec _].
    exists p, v1, u, v2, (c_nl :: t). split; [exact Hp|]. split; [constructor; [reflexivity|exact Et]|].
    split; [exact Hu|]. split; [|reflexivity]. rewrite En, Ec, E. now rewrite <- !app_assoc.
  - apply match_par_some in E as [E Hu]. exists p, v1, u, v2, []. rewrite app_nil_r.
    split; [exact Hp|]. split; [constructor|]. split; [exact Hu|]. split; [|reflexivity]. rewrite En, E at 1. reflexivity.
Qed.
Example C35_example :
  attemptVarAndUnitsMatch None (lit "  Air temperature (degC) ") = (lit "Air temperature", Some (lit "degC")) /\
  attemptVarAndUnitsMatch None (lit " Altitude  ") = (lit "Altitude", None) /\
  attemptVarAndUnitsMatch None (lit "Ozone (O3) (ppb), dry") = (lit "Ozone (O3)  , dry", Some (lit "ppb")).
Proof. repeat split; vm_compute; reflexivity. Qed.

(** * C36 *)
Section Getters.
Context {num : Type} `{NumOps num}.
Variable cb : option (str -> str * option str).

Lemma index_nth (l : list (pyv num)) i v : nth_error l i = Some v -> index (PList l) i = Ok v.
Proof. intros E. unfold index; cbn [as_list bindR]. unfold nth_res.  now rewrite E. Qed.
Lemma nth_str (l : list (pyv num)) i : Forall (of_type TStr) l -> (i < length l)%nat -> exists s, nth_error l i = Some (PStr s).
Proof.
  intros F Hi. destruct (nth_error l i) as [v|] eqn:E; [|apply nth_error_None in E; lia].
  rewrite Forall_forall in F. apply nth_error_In in E as K. apply F in K as [s ->]. eauto.
Qed.
Lemma nth_some {A} (l : list A) i : (i < length l)%nat -> exists v, nth_error l i = Some v.
Proof. intros Hi. destruct (nth_error l i) as [v|] eqn:E; [eauto|]. apply nth_error_None in E. lia. Qed.
Lemma range_len n : length (range n) = Z.to_nat n.
Proof. unfold range. now rewrite seq_length. Qed.
Lemma range_nth n i : (i < Z.to_nat n)%nat -> nth_error (range n) i = Some i.
Proof. intros Hi. unfold range. rewrite nth_error_nth' with (d := 0%nat) by now rewrite seq_length. now rewrite seq_nth. Qed.
Lemma range_in n i : In i (range n) -> (i < Z.to_nat n)%nat.
Proof. unfold range. rewrite in_seq. lia. Qed.

(** [infos] has an entry for each of [n] variables: name and units found in the
    [i]-th name, and the [i]-th missing value and scale factor. *)
Definition described (n : nat) (names : list (pyv num)) (miss scal : list (pyv num)) (infos : list var_info) : Prop :=
  length infos = n /\
  forall i, (i < n)%nat -> exists s m sc,
    nth_error names i = Some (PStr s) /\ nth_error miss i = Some m /\ nth_error scal i = Some sc /\
    nth_error infos i = Some (mkInfo (fst (attemptVarAndUnitsMatch cb s)) (snd (attemptVarAndUnitsMatch cb s)) m sc).

Lemma name_of_ok (d : na num) k l i s : d k = Some (PList l) -> nth_error l i = Some (PStr s) ->
  name_of cb d k i = Ok (attemptVarAndUnitsMatch cb s).
Proof. intros E Ei. unfold name_of, attr. rewrite E. rewrite (index_nth _ _ _ Ei). reflexivity. Qed.

Lemma same_nth {A} : forall l l' : list A, (forall i, nth_error l i = nth_error l' i) -> l = l'.
Proof.
  induction l as [|a l IH]; intros [|b l'] Hn; auto.
  - specialize (Hn 0%nat). discriminate.
  - specialize (Hn 0%nat). discriminate.
  - f_equal; [specialize (Hn 0%nat); now injection Hn|]. apply IH. intros i. exact (Hn (S i)).
Qed.
Lemma get_all {B} (f : nat -> Res B) (P : nat -> B -> Prop) n :
  (forall i, (i < Z.to_nat n)%nat -> exists b, f i = Ok b /\ P i b) ->
  exists l, mapR f (range n) = Ok l /\ length l = Z.to_nat n /\
    forall i, (i < Z.to_nat n)%nat -> exists b, nth_error l i = Some b /\ P i b.
Proof.
  intros Hf. destruct (mapR_ok f (range n)) as [l El].
  { intros i Hi. destruct (Hf i) as (b & Eb & _); [now apply range_in|]. eauto. }
  exists l. split; [exact El|]. split; [now rewrite (mapR_length _ _ _ El), range_len|].
  intros i Hi. destruct (mapR_nth _ _ _ _ _ El (range_nth n i Hi)) as (b & Eb & Hb).
  destruct (Hf i Hi) as (b' & Eb' & Pb). exists b. split; [exact Hb|]. congruence.
Qed.

Lemma vars_described (d : na num) nv vs vm vn : vars_read d nv vs vm vn ->
  exists infos, getVariables cb d = Ok infos /\ described (Z.to_nat nv) vn vm vs infos.
Proof.
  intros V. unfold getVariables. unfold attr at 1. rewrite (vr_nv _ _ _ _ _ V). cbn [as_int bindR].
  destruct (get_all (getVariable cb d) (fun i b => exists s m sc,
    nth_error vn i = Some (PStr s) /\ nth_error vm i = Some m /\ nth_error vs i = Some sc /\
    b = mkInfo (fst (attemptVarAndUnitsMatch cb s)) (snd (attemptVarAndUnitsMatch cb s)) m sc) nv) as (l & El & Ll & Hl).
  - intros i Hi. pose proof (vr_ls _ _ _ _ _ V). pose proof (vr_lm _ _ _ _ _ V). pose proof (vr_ln _ _ _ _ _ V).
    destruct (nth_str vn i (vr_tn _ _ _ _ _ V)) as [s Es]; [lia|].
    destruct (nth_some vm i) as [m Em]; [lia|]. destruct (nth_some vs i) as [sc Esc]; [lia|].
    eexists. split; [|exists s, m, sc; auto].
    unfold getVariable. rewrite (name_of_ok _ _ _ _ _ (vr_name _ _ _ _ _ V) Es). cbn [bindR].
    unfold getMissingValue, getScaleFactor, attr. rewrite (vr_miss _ _ _ _ _ V), (vr_scal _ _ _ _ _ V).
    rewrite (index_nth _ _ _ Em), (index_nth _ _ _ Esc). reflexivity.
  - exists l. split; [exact El|]. split; [exact Ll|]. intros i Hi. destruct (Hl i Hi) as (b & Hb & s & m & sc & H1 & H2 & H3 & ->).
    exists s, m, sc. auto.
Qed.
Lemma aux_described (d : na num) n : aux_read d n -> d kNAUXC = None ->
  (n <= 0)%Z /\ getAuxVariables cb d = Ok [] \/
  exists vs vm vn infos, d kASCAL = Some (PList vs) /\ d kAMISS = Some (PList vm) /\ d kANAME = Some (PList vn) /\
    getAuxVariables cb d = Ok infos /\ described (Z.to_nat n) vn vm vs infos.
Proof.
  intros V Hc. unfold getAuxVariables. unfold attr. rewrite (ar_n _ _ V). cbn [as_int bindR].
  destruct (Z.leb_spec n 0) as [Hn | Hn].
  { left. split; [exact Hn|]. unfold range. destruct n; try lia; reflexivity. }
  right. destruct (ar_lists _ _ V Hn) as (vs & vm & vn & E1 & E2 & E3 & L1 & L2 & L3 & T1 & T2 & T3).
  exists vs, vm, vn.
  destruct (get_all (getAuxVariable cb d) (fun i b => exists s m sc,
    nth_error vn i = Some (PStr s) /\ nth_error vm i = Some m /\ nth_error vs i = Some sc /\
    b = mkInfo (fst (attemptVarAndUnitsMatch cb s)) (snd (attemptVarAndUnitsMatch cb s)) m sc) n) as (l & El & Ll & Hl).
  - intros i Hi. destruct (nth_str vn i T3) as [s Es]; [lia|].
    destruct (nth_some vm i) as [m Em]; [lia|]. destruct (nth_some vs i) as [sc Esc]; [lia|].
    eexists. split; [|exists s, m, sc; auto].
    unfold getAuxVariable. rewrite (name_of_ok _ _ _ _ _ E3 Es). cbn [bindR].
    unfold getAuxMissingValue, getAuxScaleFactor, attr. rewrite E1, E2, Hc.
    rewrite (index_nth _ _ _ Em), (index_nth _ _ _ Esc). reflexivity.
  - exists l. split; [exact E1|]. split; [exact E2|]. split; [exact E3|]. split; [exact El|]. split; [exact Ll|].
    intros i Hi. destruct (Hl i Hi) as (b & Hb & s & m & sc & H1 & H2 & H3 & ->). exists s, m, sc. auto.
Qed.
(** With character variables: their scale factor is None. *)
Lemma caux_described (d : na num) n nc : caux_read d n nc ->
  (n <= 0)%Z /\ getAuxVariables cb d = Ok [] \/
  exists vs vm vn infos, d kASCAL = Some (PList vs) /\ d kAMISS = Some (PList vm) /\ d kANAME = Some (PList vn) /\
    getAuxVariables cb d = Ok infos /\ length infos = Z.to_nat n /\ (0 < nc < n)%Z /\
    described (Z.to_nat n) vn vm (firstn (Z.to_nat (n - nc)) vs ++ repeat PNone (Z.to_nat nc)) infos.
Proof.
  intros V. unfold getAuxVariables. unfold attr. rewrite (cr_n _ _ _ V). cbn [as_int bindR].
  destruct (Z.leb_spec n 0) as [Hn | Hn].
  { left. split; [exact Hn|]. unfold range. destruct n; try lia; reflexivity. }
  right. destruct (cr_lists _ _ _ V Hn) as (vs & vm & cm & vn & E1 & E2 & E3 & P1 & P2 & L1 & L2 & L3 & L4 & T1 & T2 & T3 & T4 & _).
  exists vs, (vm ++ cm), vn.
  destruct (get_all (getAuxVariable cb d) (fun i b => exists s m sc,
    nth_error vn i = Some (PStr s) /\ nth_error (vm ++ cm) i = Some m /\
    nth_error (firstn (Z.to_nat (n - nc)) vs ++ repeat PNone (Z.to_nat nc)) i = Some sc /\
    b = mkInfo (fst (attemptVarAndUnitsMatch cb s)) (snd (attemptVarAndUnitsMatch cb s)) m sc) n) as (l & El & Ll & Hl).
  - intros i Hi. destruct (nth_str vn i T4) as [s Es]; [lia|].
    destruct (nth_some (vm ++ cm) i) as [m Em]; [rewrite app_length; lia|].
    assert (Lf : length (firstn (Z.to_nat (n - nc)) vs) = Z.to_nat (n - nc)) by (rewrite firstn_length; lia).
    destruct (nth_some (firstn (Z.to_nat (n - nc)) vs ++ repeat PNone (Z.to_nat nc)) i) as [sc Esc].
    { rewrite app_length, repeat_length, Lf. lia. }
    eexists. split; [|exists s, m, sc; auto].
    unfold getAuxVariable. rewrite (name_of_ok _ _ _ _ _ E3 Es). cbn [bindR].
    unfold getAuxMissingValue, getAuxScaleFactor, attr. rewrite E1, E2, (cr_c _ _ _ V), (cr_n _ _ _ V).
    rewrite (index_nth _ _ _ Em). cbn [bindR as_int].
    destruct (Z.ltb_spec (Z.of_nat i) (n - nc)) as [Hlt | Hge].
    + rewrite nth_error_app1 in Esc by lia.
      assert (Ev : nth_error vs i = Some sc).
      { rewrite <- (firstn_skipn (Z.to_nat (n - nc)) vs). rewrite nth_error_app1 by lia. exact Esc. }
      rewrite (index_nth _ _ _ Ev). reflexivity.
    + rewrite nth_error_app2 in Esc by lia. cbn [bindR]. apply nth_error_In, repeat_spec in Esc. now subst sc.
  - exists l. split; [exact E1|]. split; [exact E2|]. split; [exact E3|]. split; [exact El|]. split; [exact Ll|].
    split; [lia|]. split; [exact Ll|].
    intros i Hi. destruct (Hl i Hi) as (b & Hb & s & m & sc & H1 & H2 & H3 & ->). exists s, m, sc. auto.
Qed.
End Getters.

(** Whatever the file contains, once its header has been read: getVariables
    has one entry for each of the NV variables, in order; getAuxVariables for
    each of the NAUXV auxiliary variables (there are none in FFI 1001; scale
    factors of the NAUXC character variables of FFI 2160 are None);
    getIndependentVariables for each independent variable. *)
Theorem C36_getters : forall num (Num : NumOps num) cb content ignore c (d : na num),
  openNAFile_r content ignore = Ok (c, d) ->
  (exists nv vs vm vn infos, d kNV = Some (PInt nv) /\ (0 < nv)%Z /\
     d kVSCAL = Some (PList vs) /\ d kVMISS = Some (PList vm) /\ d kVNAME = Some (PList vn) /\ length vn = Z.to_nat nv /\
     getVariables cb d = Ok infos /\ described cb (Z.to_nat nv) vn vm vs infos) /\
  (c = C1001 /\ d kNAUXV = None /\ getAuxVariables cb d = Ok [] \/
   exists n, d kNAUXV = Some (PInt n) /\
     ((n <= 0)%Z /\ getAuxVariables cb d = Ok [] \/
      exists vs vm vn infos, d kASCAL = Some (PList vs) /\ d kAMISS = Some (PList vm) /\ d kANAME = Some (PList vn) /\
        getAuxVariables cb d = Ok infos /\
        ((d kNAUXC = None /\ described cb (Z.to_nat n) vn vm vs infos) \/
         (exists nc, c = C2160 /\ d kNAUXC = Some (PInt nc) /\ (0 < nc < n)%Z /\
            described cb (Z.to_nat n) vn vm (firstn (Z.to_nat (n - nc)) vs ++ repeat PNone (Z.to_nat nc)) infos)))) /\
  (exists xs names, d kXNAME = Some (PList (map PStr xs)) /\ d kNIV = Some (PInt (Z.of_nat (length xs))) /\
     getIndependentVariables cb d = Ok names /\ names = map (attemptVarAndUnitsMatch cb) xs).
Proof.
  intros num Num cb content ignore c d E. apply C34_open in E as E34. apply top_line_read in E as (nlh & ffi & _ & Hh & Ef & _).
  split; [|split].
  - destruct (hr_vars _ _ _ _ Hh) as (nv & vs & vm & vn & V).
    destruct (vars_described cb _ _ _ _ _ V) as (infos & E1 & E2). destruct V. exists nv, vs, vm, vn, infos. repeat split; auto; apply E2.
  - pose proof (hr_aux _ _ _ _ Hh) as Ha.
    assert (K : (exists n, aux_read d n) /\ d kNAUXC = None -> exists n, d kNAUXV = Some (PInt n) /\
     ((n <= 0)%Z /\ getAuxVariables cb d = Ok [] \/
      exists vs vm vn infos, d kASCAL = Some (PList vs) /\ d kAMISS = Some (PList vm) /\ d kANAME = Some (PList vn) /\
        getAuxVariables cb d = Ok infos /\
        ((d kNAUXC = None /\ described cb (Z.to_nat n) vn vm vs infos) \/
         (exists nc, c = C2160 /\ d kNAUXC = Some (PInt nc) /\ (0 < nc < n)%Z /\
            described cb (Z.to_nat n) vn vm (firstn (Z.to_nat (n - nc)) vs ++ repeat PNone (Z.to_nat nc)) infos)))).
    { intros [(n & V) Hc]. exists n. split; [apply (ar_n _ _ V)|].
      destruct (aux_described cb _ _ V Hc) as [K | (vs & vm & vn & infos & E1 & E2 & E3 & E4 & E5)]; [now left|right].
      exists vs, vm, vn, infos. repeat (split; [assumption|]). left. auto. }
    destruct c; try (right; apply K; exact Ha).
    + left. destruct Ha as [Ha _]. split; [reflexivity|]. split; [exact Ha|]. unfold getAuxVariables, attr. now rewrite Ha.
    + right. destruct Ha as (n & nc & V). exists n. split; [apply (cr_n _ _ _ V)|].
      destruct (caux_described cb _ _ _ V) as [K' | (vs & vm & vn & infos & E1 & E2 & E3 & E4 & E5 & E6 & E7)]; [now left|right].
      exists vs, vm, vn, infos. repeat (split; [assumption|]). right. exists nc. split; [reflexivity|]. split; [apply (cr_c _ _ _ V)|]. auto.
  - destruct (hr_xname _ _ _ _ Hh) as (niv & xn & En & Ex & Lx & Tx).
    assert (Hpos : (0 <= niv)%Z).
    { destruct E34 as (n & f & _ & Hi & _ & _ & E2). rewrite En in E2. injection E2 as ->. cbn in Hi.
      repeat destruct Hi as [<- | Hi]; try (cbv; discriminate). contradiction. }
    assert (Hs : exists xs, xn = map PStr xs).
    { clear - Tx. induction Tx as [|v l [s ->] _ [xs ->]]; [now exists []|]. now exists (s :: xs). }
    destruct Hs as [xs ->]. rewrite map_length in Lx. exists xs. eexists. split; [exact Ex|].
    split; [rewrite En; do 2 f_equal; lia|]. split; [|reflexivity].
    unfold getIndependentVariables. unfold attr. rewrite En. cbn [as_int bindR].
    destruct (get_all (getIndependentVariable cb d) (fun i b => exists s, nth_error xs i = Some s /\ b = attemptVarAndUnitsMatch cb s) niv) as (l & El & Ll & Hl).
    + intros i Hi. destruct (nth_some xs i) as [s Es]; [lia|]. eexists. split; [|eauto].
      unfold getIndependentVariable. eapply name_of_ok; [exact Ex|]. now rewrite nth_error_map, Es.
    + rewrite El. f_equal. apply same_nth. intros i.
      destruct (Nat.lt_ge_cases i (Z.to_nat niv)) as [Hi | Hi].
      * destruct (Hl i Hi) as (b & Hb & s & Es & ->). now rewrite Hb, nth_error_map, Es.
      * rewrite (proj2 (nth_error_None l i)) by lia. symmetry. apply nth_error_None. rewrite map_length. lia.
Qed.

(** A file of FFI 2160 with two character auxiliary variables. *)
Definition small_2160 : str := unlines (map lit
  ["26 2160"; "me"; "org"; "source"; "mission"; "1 1"; "2001 01 02 2003 04 05"; "0"; "8"; "height (m)"; "station";
   "1"; "1"; "99"; "temp (K)"; "3"; "2"; "1"; "-9"; "10 12"; "zzz yyy"; "number of levels"; "site (name)"; "country"; "0"; "0"]%pylit).
Example C36_example :
  match openNAFile_r (num:=Z) small_2160 0 with
  | Ok (c, d) => c = C2160 /\
      getVariables None d = Ok [mkInfo (lit "temp") (Some (lit "K")) (PNum 99%Z) (PNum 1%Z)] /\
      getAuxVariables None d = Ok [mkInfo (lit "number of levels") None (PNum (-9)%Z) (PNum 1%Z);
        mkInfo (lit "site") (Some (lit "name")) (PStr (lit "zzz")) PNone; mkInfo (lit "country") None (PStr (lit "yyy")) PNone] /\
      getIndependentVariables None d = Ok [(lit "station", None); (lit "height", Some (lit "m"))]
  | Err _ => False
  end.
Proof. vm_compute. auto. Qed.

(** * C37 *)
(** The entries of [d] that are not None. *)
Definition not_none {num} (d d' : na num) : Prop :=
  forall k, d' k = match d k with Some PNone => None | v => v end.
(** setNADict stores the dictionary where getNADict does not look: the
    attributes. *)
Theorem C37_set_get_refuted : exists (d : na Z),
  (exists k v, d k = Some v /\ v <> PNone) /\
  forall c : core Z, (forall k, c_attrs c k = Some PNone) ->
    ~ not_none d (fst (getNADict (setNADict c d))) /\
    forall k, fst (getNADict (setNADict c d)) k = None.
Proof.
  exists (upd na_empty kNIV (PInt 1)). split; [exists kNIV, (PInt 1); split; [reflexivity|discriminate]|].
  intros c Hc. assert (K : forall k, fst (getNADict (setNADict c (upd na_empty kNIV (PInt 1)))) k = None).
  { intros k. cbn. now rewrite Hc. }
  split; [|exact K]. intros Hn. specialize (Hn kNIV). rewrite K in Hn. discriminate.
Qed.
(** What holds: getNADict gives exactly the attributes that are not None and
    remembers the same dictionary, changing no attribute; setNADict stores the
    argument (a copy) in [na_dict] and changes no attribute.  Missing: the
    connection between the two. *)
Theorem C37_set_get_partial : forall num (c : core num),
  not_none (c_attrs c) (fst (getNADict c)) /\ c_dict (snd (getNADict c)) = fst (getNADict c) /\
  c_attrs (snd (getNADict c)) = c_attrs c /\
  forall d, c_dict (setNADict c d) = d /\ c_attrs (setNADict c d) = c_attrs c /\
    fst (getNADict (setNADict c d)) = fst (getNADict c).
Proof.
  intros num c. split; [|auto]. intros k. cbn. destruct (c_attrs c k) as [[]|]; reflexivity.
Qed.
Example C37_example : let c := mkCore (upd (upd na_empty kNIV (PInt 1)) kNV PNone) (na_empty (num:=Z)) in
  fst (getNADict c) kNIV = Some (PInt 1) /\ fst (getNADict c) kNV = None.
Proof. split; reflexivity. Qed.

Print Assumptions C35_name_and_units.
Print Assumptions C35_no_units.
Print Assumptions C35_nothing_lost.
Print Assumptions C36_getters.
Print Assumptions C37_set_get_refuted.
Print Assumptions C37_set_get_partial.
