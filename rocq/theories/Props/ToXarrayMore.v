(** C59-C64: selection, names, global attributes and refusals in the conversion
    of a NASA Ames file to xarray objects. *)
From Coq Require Import List NArith ZArith Bool Lia.
From Verif Require Import Py.Str Py.Res Py.Num Py.Arith Model.Dict Model.CommonUtils Model.Utils Model.NACore Model.NARead Model.NCWrite
  Model.Normalize Model.Xarray Model.Collector Model.ToXarray Spec.TextSpec Spec.ToXarraySpec Spec.ReadSpec Spec.Binary64
  Proofs.StrLemmas Proofs.ReadFrame Proofs.ReadFile Proofs.CollectorLemmas Props.NormalizeProps Props.ToXarrayProps.
Import ListNotations.

(** ** C59 *)
Section Select.
Context {num : Type} {Num : NumOps num} {Ar : ArithOps num}.
Lemma position_spec s : forall (l : list (pyv num)) i j, position s l i = Some j ->
  exists k, j = (i + k)%nat /\ nth_error l k = Some (PStr s) /\ forall m, (m < k)%nat -> nth_error l m <> Some (PStr s).
Proof.
  induction l as [| x t IH]; intros i j Q; [discriminate Q |].
  assert (Rec : position s t (S i) = Some j -> x <> PStr s ->
    exists k, j = (i + k)%nat /\ nth_error (x :: t) k = Some (PStr s) /\ forall m, (m < k)%nat -> nth_error (x :: t) m <> Some (PStr s)).
  { intros P N. destruct (IH _ _ P) as (k & -> & A & B). exists (S k). split; [lia | split; [exact A |]].
    intros [| m] L; [cbn; congruence | apply B; lia]. }
  destruct x as [| | | u |]; cbn [position] in Q; try (apply Rec; [exact Q | discriminate]).
  destruct (str_eqb s u) eqn:D; [| apply Rec; [exact Q | intros C; injection C as ->; rewrite str_eqb_refl in D; discriminate D]].
  apply str_eqb_eq in D as ->. injection Q as <-. exists 0%nat. split; [lia | split; [reflexivity | intros m L; lia]].
Qed.
Lemma position_none s : forall (l : list (pyv num)) i, position s l i = None -> ~ In (PStr s) l.
Proof.
  induction l as [| x t IH]; intros i Q I; [destruct I |].
  destruct x as [| | | u |]; cbn [position] in Q; try (destruct I as [I | I]; [discriminate I | exact (IH _ Q I)]).
  destruct (str_eqb s u) eqn:D; [discriminate Q |]. destruct I as [I | I]; [injection I as ->; rewrite str_eqb_refl in D; discriminate D | exact (IH _ Q I)].
Qed.
Lemma Forall2_trans {A B C} (P : A -> B -> Prop) (Q : B -> C -> Prop) (R : A -> C -> Prop) l1 l2 l3 :
  (forall a b c, P a b -> Q b c -> R a c) -> Forall2 P l1 l2 -> Forall2 Q l2 l3 -> Forall2 R l1 l3.
Proof. intros H F. revert l3. induction F; intros l3 G; inversion G; subst; constructor; eauto. Qed.
Lemma main_numbers cb ren d axes is (vs : list (xvar num)) : mapR (convertMain cb ren d axes) is = Ok vs ->
  Forall2 (fun i v => n_attr (v_info v) (lit "nasa_ames_var_number") = Some (gint (Z.of_nat i)) /\
                      exists values, index (attr d kV) i = Ok values) is vs.
Proof.
  intros R. induction (mapR_Forall2 _ _ _ R) as [| i v l l' H F IH]; [constructor |].
  constructor; [destruct (main_inv _ _ _ _ _ _ H) as (m & sc & vals & _ & _ & V & _ & _ & _ & D); split; eauto |].
  apply IH. clear - F. revert l' F. induction l as [| x t IH]; intros l' F; inversion F; subst; [reflexivity |]. cbn. rewrite H1. cbn. rewrite (IH _ H3). reflexivity.
Qed.
End Select.
(** What is converted is what was asked for, in that order: all variables, the
    given numbers, or the first variable with each of the given names; with an
    unknown name the conversion is refused. *)
Theorem C59_partial : forall num (Num : NumOps num) (Ar : ArithOps num) (s : settings (num := num)) d o,
  toXarray s d = Ok o ->
  exists is, Forall2 (fun i v => n_attr (v_info v) (lit "nasa_ames_var_number") = Some (gint (Z.of_nat i)) /\
                                 exists values, index (attr d kV) i = Ok values) is (o_vars o) /\
  (t_vars s = SAll -> exists nv, attr d kNV = PInt nv /\ is = seq 0 (Z.to_nat nv)) /\
  (forall l, t_vars s = SNums l -> is = l) /\
  (forall n l, t_vars s = SStrs (n :: l) -> (forall c t, n = c :: t -> is_digit c = false) ->
     exists names, as_list (attr d kVNAME) = Ok names /\
     Forall2 (fun n i => nth_error names i = Some (PStr n) /\ forall j, (j < i)%nat -> nth_error names j <> Some (PStr n)) (n :: l) is).
Proof.
  intros num Num Ar s d o R. destruct (toXarray_inv _ _ _ R) as (ffi & ren & axes & is & js & _ & _ & _ & _ & Hs & Hv & _).
  exists is. split; [exact (main_numbers _ _ _ _ _ _ Hv) |]. split; [| split].
  - intros E. rewrite E in Hs. cbn in Hs. destruct (attr d kNV) as [| nv | | |]; try discriminate Hs. injection Hs as <-. exists nv. auto.
  - intros l E. rewrite E in Hs. destruct l; [discriminate Hs |]. injection Hs as <-. reflexivity.
  - intros n l E D. rewrite E in Hs. cbn [selected_main] in Hs.
    assert (D' : match n with [] => false | c :: _ => is_digit c end = false) by (destruct n as [| c t]; [reflexivity | exact (D c t eq_refl)]).
    rewrite D' in Hs.
    assert (L : exists names, as_list (attr d kVNAME) = Ok names).
    { destruct (as_list (attr d kVNAME)) as [names | e] eqn:El; [eauto |]. cbn [mapR bindR] in Hs. discriminate Hs. }
    destruct L as (names & L).
    assert (F := mapR_Forall2 _ _ _ Hs). rewrite L in F. cbn [bindR] in F.
    assert (K : forall n i, of_opt (ENappy E_Other) (position n names 0) = Ok i ->
      nth_error names i = Some (PStr n) /\ forall j, (j < i)%nat -> nth_error names j <> Some (PStr n)).
    { intros m i Q. destruct (position m names 0) as [j |] eqn:P; [| discriminate Q]. injection Q as ->.
      destruct (position_spec _ _ _ _ P) as (k & -> & A & B). auto. }
    exists names. split; [exact L |]. clear - F K. induction F; constructor; auto.
Qed.
(** An unknown name is refused. *)
Theorem C59_unknown_partial : forall num (Num : NumOps num) (Ar : ArithOps num) (s : settings (num := num)) d names n l u,
  attr d kVNAME = PList names -> t_vars s = SStrs (n :: l) -> (forall c t, n = c :: t -> is_digit c = false) ->
  In u (n :: l) -> ~ In (PStr u) names -> forall o, toXarray s d <> Ok o.
Proof.
  intros num Num Ar s d names n l u V E D I N o R. destruct (C59_partial _ _ _ s d o R) as (is & _ & _ & _ & K).
  destruct (K n l E D) as (names' & V' & F). rewrite V in V'. injection V' as <-.
  assert (G : exists i, nth_error names i = Some (PStr u)).
  { clear - F I. induction F as [| a b l1 l2 P F IH]; [destruct I |]. destruct I as [-> | I]; [exists b; apply P | exact (IH I)]. }
  destruct G as (i & G). exact (N (nth_error_In _ _ G)).
Qed.
Definition with_vars (v a : select) : settings (num := b64) := mkSet v a [] None false [] [] None (lit "2024-01-01 00:00:00") (lit "2.0").
Definition names_of (r : Res (objects (num := b64))) : list str * list str :=
  match r with Ok o => (map v_name (o_vars o), map v_name (o_aux o)) | Err _ => ([], []) end.
Definition f_two : str := file_1001 (lit "height (m)") (lit "1 1") (lit "-9999 -9999") (map lit ["Temp (K)"; "3He (ppt)"]%pylit) (map lit ["0 280 1"; "10 281 2"]%pylit).
Example C59_example :
  names_of (converted (with_vars (SStrs [lit "Temp (K)"]) SAll) f_two) = ([lit "temp"], []) /\
  names_of (converted (with_vars (SNums [1; 0]%nat) SAll) f_two) = ([lit "3he"; lit "temp"], []) /\
  converted (with_vars (SStrs [lit "Temp (K)"; lit "Ozone"]) SAll) f_two = Err (ENappy E_Other).
Proof. vm_compute. auto. Qed.
(** False of the code: a name that starts with a digit is taken for a number, ... *)
Theorem C59_digit_refuted : exists content d,
  read_file (num := b64) content 0 = Ok (C1001, d) /\
  attr d kVNAME = PList [PStr (lit "Temp (K)"); PStr (lit "3He (ppt)")] /\
  toXarray (with_vars (SStrs [lit "3He (ppt)"]) SAll) d = Err EValueError.
Proof.
  exists f_two.
  assert (K : match read_file (num := b64) f_two 0 with
              | Ok (C1001, d) => (attr d kVNAME, toXarray (with_vars (SStrs [lit "3He (ppt)"]) SAll) d)
                                 = (PList [PStr (lit "Temp (K)"); PStr (lit "3He (ppt)")], Err EValueError)
              | _ => False
              end) by (vm_compute; reflexivity).
  destruct (read_file (num := b64) f_two 0) as [[c d] |]; [| destruct K]. destruct c; try (destruct K; fail).
  injection K as K1 K2. exists d. auto.
Qed.
(** ... and an unknown name of an auxiliary variable is ignored. *)
Definition f_aux : str := unlines (map lit
  ["18 1010"; "A, B"; "Org"; "Src"; "Mission"; "1 1"; "1999 1 1 2000 2 2"; "0"; "height (m)"; "1"; "1"; "-9999"; "temp (K)";
   "1"; "1"; "-9"; "flag (1)"; "0"; "0"; "0 7"; "280"]%pylit).
Theorem C59_aux_refuted : exists content d o,
  read_file (num := b64) content 0 = Ok (C1010, d) /\ attr d kANAME = PList [PStr (lit "flag (1)")] /\
  toXarray (with_vars SAll (SStrs [lit "Ozone"])) d = Ok o /\ o_aux o = [].
Proof.
  exists f_aux.
  assert (K : match read_file (num := b64) f_aux 0 with
              | Ok (C1010, d) => match toXarray (with_vars SAll (SStrs [lit "Ozone"])) d with
                                 | Ok o => (attr d kANAME, o_aux o) = (PList [PStr (lit "flag (1)")], [])
                                 | Err _ => False
                                 end
              | _ => False
              end) by (vm_compute; reflexivity).
  destruct (read_file (num := b64) f_aux 0) as [[c d] |]; [| destruct K]. destruct c; try (destruct K; fail).
  destruct (toXarray (with_vars SAll (SStrs [lit "Ozone"])) d) as [o |] eqn:E; [| destruct K].
  injection K as K1 K2. exists d, o. auto.
Qed.

(** ** C60 *)
(** Missing from the full claim: the variables must get different names. *)
Lemma dset_fresh {A} k (v : A) l : ~ In k (map fst l) -> dset k v l = l ++ [(k, v)].
Proof.
  induction l as [| [k' v'] t IH]; intros N; [reflexivity |]. cbn [dset map fst app] in *.
  rewrite str_eqb_false by (intros ->; apply N; left; reflexivity). rewrite IH; [reflexivity |]. intros I. apply N. right. exact I.
Qed.
Lemma dict_of_nodup {A} (l : list (str * A)) : NoDup (map fst l) -> dict_of_list l = l.
Proof.
  intros N. unfold dict_of_list. change l with ([] ++ l) at 2.
  assert (G : forall (t acc : list (str * A)), NoDup (map fst (acc ++ t)) -> fold_left (fun d p => dset (fst p) (snd p) d) t acc = acc ++ t).
  { induction t as [| [k v] t IH]; intros acc D; [rewrite app_nil_r; reflexivity |]. cbn [fold_left fst snd].
    rewrite map_app in D. cbn [map fst] in D. assert (D' := NoDup_remove_2 _ _ _ D). rewrite dset_fresh by (intros I; apply D', in_or_app; left; exact I).
    rewrite IH; [rewrite <- app_assoc; reflexivity |]. rewrite <- app_assoc. cbn [app]. rewrite map_app. exact D. }
  apply G. exact N.
Qed.
Theorem C60_partial : forall num (o : objects (num := num)),
  NoDup (map v_name (o_vars o ++ o_aux o)) -> map snd (file_variables o) = o_vars o ++ o_aux o.
Proof.
  intros num o N. unfold file_variables. rewrite dict_of_nodup; rewrite map_map; cbn [fst snd]; [apply map_id | exact N].
Qed.

Definition f_clash : str := file_1001 (lit "height (m)") (lit "1 1") (lit "-9999 -9999") (map lit ["Temp (K)"; "temp (C)"]%pylit) (map lit ["0 280 7"; "10 281 8"]%pylit).
Example C60_example : exists o, converted plain_settings f_two = Ok o /\ NoDup (map v_name (o_vars o ++ o_aux o)) /\
  map fst (file_variables o) = map lit ["temp"; "3he"]%pylit.
Proof.
  assert (K : match converted plain_settings f_two with
              | Ok o => (map v_name (o_vars o ++ o_aux o), map fst (file_variables o)) = (map lit ["temp"; "3he"]%pylit, map lit ["temp"; "3he"]%pylit)
              | Err _ => False end) by (vm_compute; reflexivity).
  destruct (converted plain_settings f_two) as [o |]; [| destruct K]. injection K as K1 K2. exists o. rewrite K1, K2.
  split; [reflexivity | split; [| reflexivity]]. repeat constructor; vm_compute; intuition discriminate.
Qed.
(** False of the code: two variables whose names differ in case, units or signs
    only get one name, and the file has the last one. *)
Theorem C60_refuted : exists content d o,
  read_file (num := b64) content 0 = Ok (C1001, d) /\ toXarray plain_settings d = Ok o /\
  length (o_vars o ++ o_aux o) = 2%nat /\
  map (fun p => v_data (snd p)) (file_variables o) = [PList (map PNum [bf "7"; bf "8"])].
Proof.
  exists f_clash.
  assert (K : match read_file (num := b64) f_clash 0 with
              | Ok (C1001, d) => match toXarray plain_settings d with
                                 | Ok o => (length (o_vars o ++ o_aux o), map (fun p => v_data (snd p)) (file_variables o))
                                           = (2%nat, [PList (map PNum [bf "7"; bf "8"])])
                                 | Err _ => False
                                 end
              | _ => False
              end) by (vm_compute; reflexivity).
  destruct (read_file (num := b64) f_clash 0) as [[c d] |]; [| destruct K]. destruct c; try (destruct K; fail).
  destruct (toXarray plain_settings d) as [o |] eqn:E; [| destruct K].
  injection K as K1 K2. exists d, o. auto.
Qed.

(** ** C61 *)
Lemma dict_of_last {A} (l : list (str * A)) k v t : ~ In k (map fst t) -> lookup k (dict_of_list (l ++ (k, v) :: t)) = Some v.
Proof.
  intros N. unfold dict_of_list. rewrite fold_left_app. cbn [fold_left fst snd].
  generalize (fold_left (fun d p => dset (fst p) (snd p) d) l []). intros acc.
  assert (G : forall t acc', ~ In k (map fst t) -> lookup k acc' = Some v -> lookup k (fold_left (fun d p => dset (fst p) (snd p) d) t acc') = Some v).
  { clear. induction t as [| [k' v'] t IH]; intros acc N L; [exact L |]. cbn [fold_left fst snd]. apply IH; [intros I; apply N; right; exact I |].
    rewrite dset_other; [exact L |]. intros ->. apply N. left. reflexivity. }
  apply G; [exact N | apply dset_lookup].
Qed.
Lemma set_keeps {A} (l : list (str * A)) k (acc : list (str * A)) : ~ In k (map fst l) ->
  lookup k (fold_left (fun d p => dset (fst p) (snd p) d) l acc) = lookup k acc.
Proof.
  revert acc. induction l as [| [k' v'] t IH]; intros acc N; [reflexivity |]. cbn [fold_left fst snd]. rewrite IH by (intros I; apply N; right; exact I).
  apply dset_other. intros ->. apply N. left. reflexivity.
Qed.
Lemma Ok_inj {A} (a b : A) : Ok a = Ok b -> a = b.
Proof. congruence. Qed.
Lemma glob_atts_user {num} {Num : NumOps num} now version (d : na num) user g k : glob_atts now version d user = Ok g ->
  ~ In k mapped_names -> lookup k g = lookup k (dict_of_list user).
Proof.
  unfold glob_atts. intros R N. bindE R gi Hi. bindE R gh Hh. bindE R gc Hc. apply Ok_inj in R. rewrite <- R. apply set_keeps. exact N.
Qed.
(** An attribute of the caller is in the result with its value, unless it has one
    of the names that the conversion sets (or is given twice). *)
Theorem C61_partial : forall num (Num : NumOps num) (Ar : ArithOps num) (s : settings (num := num)) d o l k v t,
  toXarray s d = Ok o -> t_globals s = l ++ (k, v) :: t -> ~ In k (map fst (l ++ t)) -> ~ In k mapped_names ->
  In (k, v) (o_globals o) /\ forall v', In (k, v') (o_globals o) -> v' = v.
Proof.
  intros num Num Ar s d o l k v t R E N M. destruct (toXarray_inv _ _ _ R) as (ffi & ren & axes & is & js & _ & _ & Hg & _).
  unfold mapNACommentsToGlobalAttributes in Hg. bindE Hg g Gg. bindE Hg firsts Gf. apply Ok_inj in Hg. rewrite map_app, in_app_iff in N.
  assert (L : lookup k g = Some v). { rewrite (glob_atts_user _ _ _ _ _ _ Gg M), E. apply dict_of_last. tauto. }
  assert (F := mapR_Forall2 _ _ _ Gf).
  assert (K : forall v', In (k, v') firsts -> v' = v).
  { intros v' I. destruct (Forall2_in_r _ _ _ _ F I) as ([k0 v0] & _ & Q). cbn [fst] in Q. destruct (lookup k0 g) as [w |] eqn:W; [| discriminate Q].
    cbn [of_opt bindR] in Q. injection Q as <- <-. congruence. }
  assert (I1 : In (k, v) firsts).
  { rewrite E in F. destruct (Forall2_app_inv_l _ _ F) as (f1 & f2 & _ & F2 & ->). inversion F2 as [| a b l1 l2 Q F3]; subst. cbn [fst] in Q. rewrite L in Q.
    injection Q as <-. apply in_or_app. right. left. reflexivity. }
  rewrite <- Hg. split; [apply in_or_app; left; exact I1 |].
  intros v' I. apply in_app_iff in I as [I | I]; [exact (K _ I) |]. apply filter_In in I as [_ I]. cbn [fst] in I.
  assert (Q : mem_str k (map fst firsts) = true); [| rewrite Q in I; discriminate I].
  apply mem_str_in. apply (in_map fst) in I1. exact I1.
Qed.
(** Exactly the last variable of each name is kept (this completes C60). *)
Theorem C60_last_partial : forall num (o : objects (num := num)) l v t,
  o_vars o ++ o_aux o = l ++ v :: t -> ~ In (v_name v) (map v_name t) -> lookup (v_name v) (file_variables o) = Some v.
Proof.
  intros num o l v t E N. unfold file_variables. rewrite E, map_app. cbn [map]. apply dict_of_last. rewrite map_map. exact N.
Qed.
Definition with_globals (g : list (str * gval b64)) : settings := mkSet SAll SAll g None false [] [] None (lit "2024-01-01 00:00:00") (lit "2.0").
Definition c61_globals : list (str * gval b64) := [(lit "project", gstr (lit "X")); (lit "title", gstr (lit "mine"))].
Definition global_of (k : str) (r : Res (objects (num := b64))) : option (pyv b64) :=
  match r with Ok o => option_map g_val (lookup k (o_globals o)) | Err _ => None end.
Example C61_example : global_of (lit "project") (converted (with_globals c61_globals) f_two) = Some (PStr (lit "X")) /\
  ~ In (lit "project") mapped_names.
Proof. split; [vm_compute; reflexivity |]. vm_compute. intuition discriminate. Qed.
(** False of the code: a title given by the caller is replaced by the one of the
    file. *)
Theorem C61_refuted : exists content d o,
  read_file (num := b64) content 0 = Ok (C1001, d) /\ toXarray (with_globals [(lit "title", gstr (lit "mine"))]) d = Ok o /\
  lookup (lit "title") (o_globals o) = Some (gstr (lit "Mission")).
Proof.
  exists f_two.
  assert (K : match read_file (num := b64) f_two 0 with
              | Ok (C1001, d) => match toXarray (with_globals [(lit "title", gstr (lit "mine"))]) d with
                                 | Ok o => lookup (lit "title") (o_globals o) = Some (gstr (lit "Mission"))
                                 | Err _ => False
                                 end
              | _ => False
              end) by (vm_compute; reflexivity).
  destruct (read_file (num := b64) f_two 0) as [[c d] |]; [| destruct K]. destruct c; try (destruct K; fail).
  destruct (toXarray (with_globals [(lit "title", gstr (lit "mine"))]) d) as [o |] eqn:E; [| destruct K].
  exists d, o. auto.
Qed.

(** ** C62 *)
Lemma unsafe_iff c : unsafe c = true <-> forbidden c.
Proof.
  unfold unsafe, forbidden. rewrite orb_true_iff, existsb_exists. split.
  - intros [Q | (x & I & Q)]; [left; exact Q | right]. apply N.eqb_eq in Q as ->. vm_compute. vm_compute in I. tauto.
  - intros [Q | I]; [left; exact Q | right]. exists c. split; [vm_compute; vm_compute in I; tauto | apply N.eqb_refl].
Qed.
Lemma lower_unsafe c : unsafe (lower_chr c) = unsafe c.
Proof.
  unfold lower_chr. destruct ((65 <=? c) && (c <=? 90))%N eqn:Q; [| reflexivity]. apply andb_prop in Q as [Q1 Q2].
  apply N.leb_le in Q1, Q2.
  assert (K : In c (map N.of_nat (seq 65 26))).
  { apply in_map_iff. exists (N.to_nat c). split; [apply N2Nat.id |]. apply in_seq. lia. }
  vm_compute in K. repeat (destruct K as [<- | K]; [vm_compute; reflexivity |]). destruct K.
Qed.
Lemma us_safe : unsafe c_us = false. Proof. reflexivity. Qed.
Lemma sub_safe s : forall b c, In c (sub_unsafe b s) -> unsafe c = false.
Proof.
  induction s as [| x t IH]; intros b c I; [destruct I |]. cbn [sub_unsafe] in I. destruct (unsafe x) eqn:U.
  - destruct b; [exact (IH _ _ I) |]. destruct I as [Q | I]; [rewrite <- Q; exact us_safe | exact (IH _ _ I)].
  - destruct I as [<- | I]; [exact U | exact (IH _ _ I)].
Qed.
Lemma replace_none p r : forall s, (forall c, In c p -> ~ In c s) -> p <> [] -> replace_str p r s = s.
Proof.
  intros s. unfold replace_str. induction s as [| x t IH]; intros N P; [reflexivity |]. cbn [replace_aux].
  destruct p as [| y p]; [contradiction |]. cbn [starts_with].
  destruct (N.eqb_spec y x) as [-> | D]; [exfalso; apply (N x); left; reflexivity |]. cbn [andb]. f_equal. apply IH; [| discriminate].
  intros c I J. apply (N c I). right. exact J.
Qed.
Lemma dec_safe n c : In c (dec_of_N n) -> unsafe c = false.
Proof.
  unfold dec_of_N. generalize (N.to_uint n). intros u. induction u; cbn; intros I; try (destruct I as [<- | I]; [reflexivity | auto]). destruct I.
Qed.
Lemma nc_name_safe kind i name c : (forall c, In c kind -> unsafe c = false) -> In c (nc_name kind i name) -> unsafe c = false.
Proof.
  intros K. unfold nc_name. destruct (length name <? 64)%nat.
  - unfold lower. intros I. apply in_map_iff in I as (x & <- & I). rewrite lower_unsafe. exact (sub_safe _ _ _ I).
  - intros I. apply in_app_iff in I as [I | I]; [exact (K c I) | exact (dec_safe _ _ I)].
Qed.
Lemma safe_name_safe s c : (forall c, In c s -> unsafe c = false) -> In c (safe_name s) -> unsafe c = false.
Proof.
  intros N. unfold safe_name. rewrite replace_none; [| | discriminate].
  - intros I. unfold lower in I. apply in_map_iff in I as (x & <- & I). rewrite lower_unsafe. exact (N x I).
  - intros x [<- | []] I. unfold lower in I. apply in_map_iff in I as (y & Q & I). assert (U := N y I). rewrite <- lower_unsafe, Q in U. discriminate U.
Qed.
(** Without renaming, no name of a converted variable has a forbidden character. *)
Theorem C62_safe_names : forall num (Num : NumOps num) (Ar : ArithOps num) (s : settings (num := num)) d o v c,
  t_rename s = [] -> toXarray s d = Ok o -> In v (o_vars o ++ o_aux o) -> In c (v_name v) -> ~ forbidden c.
Proof.
  intros num Num Ar s d o v c Rn R I Ic F. apply unsafe_iff in F.
  destruct (toXarray_inv _ _ _ R) as (ffi & ren & axes & is & js & _ & _ & _ & _ & _ & Hv & Hx & Hr & _). rewrite Rn in Hr. cbn in Hr. subst ren.
  enough (unsafe c = false) by congruence. clear F. apply in_app_iff in I as [I | I].
  - destruct (Forall2_in_r _ _ _ _ (mapR_Forall2 _ _ _ Hv) I) as (i & _ & Hi). unfold convertMain in Hi.
    destruct (convertVariable_inv _ _ _ _ _ _ _ _ _ Hi) as (w & vals & scal & _ & _ & _ & _ & _ & _ & _ & _ & _ & A);
      try (intros Q; vm_compute in Q; discriminate Q). destruct A as (A & _). rewrite A in Ic. cbn [lookup] in Ic.
    refine (safe_name_safe _ _ _ Ic). intros x. apply nc_name_safe. intros y Y. vm_compute in Y. repeat (destruct Y as [<- | Y]; [reflexivity |]). destruct Y.
  - destruct (Forall2_in_r _ _ _ _ (mapR_Forall2 _ _ _ Hx) I) as (i & _ & Hi). unfold convertAux in Hi.
    destruct (convertVariable_inv _ _ _ _ _ _ _ _ _ Hi) as (w & vals & scal & _ & _ & _ & _ & _ & _ & _ & _ & _ & A);
      try (intros Q; vm_compute in Q; discriminate Q). destruct A as (A & _). rewrite A in Ic. cbn [lookup] in Ic.
    refine (safe_name_safe _ _ _ Ic). intros x. apply nc_name_safe. intros y Y. vm_compute in Y. repeat (destruct Y as [<- | Y]; [reflexivity |]). destruct Y.
Qed.
Example C62_example : names_of (converted plain_settings
  (file_1001 (lit "height (m)") (lit "1 1") (lit "-9999 -9999") (map lit ["Mole fraction [O3] - dry (ppb)"; "a+b"]%pylit) (map lit ["0 1 2"]%pylit)))
  = (map lit ["mole_fraction_o3_dry"; "a_b"]%pylit, []).
Proof. vm_compute. reflexivity. Qed.

(** ** C63 *)
(** The file formats that the class does not know are refused, whatever the
    settings are. *)
Theorem C63_refused : forall num (Num : NumOps num) (Ar : ArithOps num) (s : settings (num := num)) content ignore c d,
  read_file content ignore = Ok (c, d) -> In c [C2110; C2160; C2310] -> toXarray s d = Err ETypeError.
Proof.
  intros num Num Ar s content ignore c d R I. destruct (read_file_inv _ _ _ _ R) as (_ & _ & _ & _ & _ & F & _).
  unfold toXarray. rewrite F. destruct I as [<- | [<- | [<- | []]]]; reflexivity.
Qed.
(** False of the code: no file of FFI 1020 is converted, though it is not one of
    those that are refused with a message. *)
Theorem C63_1020_refuted : forall num (Num : NumOps num) (Ar : ArithOps num) (s : settings (num := num)) content ignore d,
  read_file content ignore = Ok (C1020, d) -> exists e, toXarray s d = Err e.
Proof.
  intros num Num Ar s content ignore d R. destruct (read_file_inv _ _ _ _ R) as (h & line & _ & D & _ & F & V).
  destruct (toXarray s d) as [o | e] eqn:E; [exfalso | exists e; reflexivity].
  destruct (toXarray_inv _ _ _ E) as (ffi & ren & axes & is & js & _ & _ & _ & Hx & _).
  unfold convertAxes in Hx. rewrite V in Hx. cbn [as_int bindR cls_ffi] in Hx. unfold normalized in Hx. rewrite F in Hx. cbn [as_int bindR cls_ffi] in Hx.
  change (0 <? 1020 / 1000)%Z with true in Hx. change (1020 =? 1020)%Z with true in Hx. cbn [bindR] in Hx.
  destruct (C57_refuted num Num Ar h content d D) as [Q | Q]; rewrite Q in Hx; discriminate Hx.
Qed.
Definition f_1020 : str := unlines (map lit ["17 1020"; "A, B"; "Org"; "Src"; "Mission"; "1 1"; "1999 01 01 2000 02 02";
    "0.5"; "2"; "time (s)"; "1"; "1"; "-9999"; "temp (K)"; "0"; "0"; "0"; "0"; "10 20"; "1"; "30 40"]%pylit).
Definition f_2160 : str := unlines (map lit ["21 2160"; "A, B"; "Org"; "Src"; "Mission"; "1 1"; "1999 01 01 2000 02 02"; "0"; "8";
    "height (m)"; "station"; "1"; "1"; "-9999"; "temp (K)"; "1"; "0"; "1"; "-99"; "n"; "0"; "0"; "Alpha"; "2"; "1 5"; "2 6"]%pylit).
Example C63_example : (exists d, read_file (num := b64) f_1020 0 = Ok (C1020, d)) /\ exists o, converted plain_settings f_two = Ok o.
Proof.
  split.
  - assert (K : match read_file (num := b64) f_1020 0 with Ok (C1020, _) => True | _ => False end) by (vm_compute; exact I).
    destruct (read_file (num := b64) f_1020 0) as [[c d] |]; [| destruct K]. destruct c; try (destruct K; fail). exists d. reflexivity.
  - assert (K : match converted plain_settings f_two with Ok _ => True | _ => False end) by (vm_compute; exact I).
    destruct (converted plain_settings f_two) as [o |]; [exists o; reflexivity | destruct K].
Qed.

(** ** C64 *)
(** A cell of a converted variable is missing exactly when the one of the file is,
    if multiplication by the scale factor changes no number (scale factor 1). *)
Theorem C64_partial : forall num (Num : NumOps num) (Ar : ArithOps num) (s : settings (num := num)) d o v,
  toXarray s d = Ok o -> In v (o_vars o) ->
  exists i miss sv scal values,
    n_attr (v_info v) (lit "nasa_ames_var_number") = Some (gint (Z.of_nat i)) /\
    index (attr d kVMISS) i = Ok miss /\ index (attr d kVSCAL) i = Ok sv /\ number_is sv scal /\ index (attr d kV) i = Ok values /\
    ((forall x : num, num_times x scal = x) -> forall p x, at_path p values = Some (PNum x) ->
       (at_path p (v_data v) = v_miss v <-> PNum x = miss)).
Proof.
  intros num Num Ar s d o v R I. destruct (C54_partial num Num Ar s d o v R I) as (i & miss & sv & scal & values & A & B & C & D & E & F & G & _).
  exists i, miss, sv, scal, values. repeat (split; [assumption |]). intros U p x P. rewrite (G p x P), U, F.
  split; [intros Q; injection Q; auto | intros ->; reflexivity].
Qed.
(** False of the code: the value -99990 with scale factor 0.1 becomes the missing
    value -9999. *)
Theorem C64_refuted : exists content d o v,
  read_file (num := b64) content 0 = Ok (C1001, d) /\ toXarray plain_settings d = Ok o /\ In v (o_vars o) /\
  index (attr d kVMISS) 0 = Ok (PNum (bf "-9999")) /\ attr d kV = PList [PList [PNum (bf "2800"); PNum (bf "-99990")]] /\
  at_path [1%nat] (v_data v) = v_miss v.
Proof.
  set (f := file_1001 (lit "height (m)") (lit "0.1") (lit "-9999") [lit "temp (K)"] (map lit ["0 2800"; "10 -99990"]%pylit)).
  exists f.
  assert (K : match read_file (num := b64) f 0 with
              | Ok (C1001, d) => match toXarray plain_settings d with
                                 | Ok o => match o_vars o with
                                           | [v] => (index (attr d kVMISS) 0, attr d kV, at_path [1%nat] (v_data v), v_miss v)
                                             = (Ok (PNum (bf "-9999")), PList [PList [PNum (bf "2800"); PNum (bf "-99990")]],
                                                Some (PNum (bf "-9999")), Some (PNum (bf "-9999")))
                                           | _ => False
                                           end
                                 | Err _ => False
                                 end
              | _ => False
              end) by (vm_compute; reflexivity).
  destruct (read_file (num := b64) f 0) as [[c d] |]; [| destruct K]. destruct c; try (destruct K; fail).
  destruct (toXarray plain_settings d) as [o |] eqn:E; [| destruct K].
  destruct (o_vars o) as [| v [|]] eqn:Ov; try (destruct K; fail). assert (K1 := f_equal (fun q => fst (fst (fst q))) K). assert (K2 := f_equal (fun q => snd (fst (fst q))) K).
  assert (K3 := f_equal (fun q => snd (fst q)) K). assert (K4 := f_equal snd K). cbn [fst snd] in K1, K2, K3, K4.
  exists d, o, v. rewrite Ov, K1, K2, K3, K4. split; [reflexivity |]. split; [exact E |]. split; [left; reflexivity |]. auto.
Qed.
Example C64_example : values_of (converted plain_settings f_two) =
  [(PList (map PNum [bf "280"; bf "281"]), Some (PNum (bf "-9999"))); (PList (map PNum [bf "1"; bf "2"]), Some (PNum (bf "-9999")))].
Proof. vm_compute. reflexivity. Qed.

Print Assumptions C59_partial.
Print Assumptions C59_unknown_partial.
Print Assumptions C59_digit_refuted.
Print Assumptions C59_aux_refuted.
Print Assumptions C60_partial.
Print Assumptions C60_last_partial.
Print Assumptions C60_refuted.
Print Assumptions C61_partial.
Print Assumptions C61_refuted.
Print Assumptions C62_safe_names.
Print Assumptions C63_refused.
Print Assumptions C63_1020_refuted.
Print Assumptions C64_partial.
Print Assumptions C64_refuted.
