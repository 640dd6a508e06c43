(** C54 and other properties of the conversion of a NASA Ames file to xarray
    objects. *)
From Coq Require Import List NArith ZArith Bool Lia.
From Verif Require Import Py.Str Py.Res Py.Num Py.Arith Model.Dict Model.CommonUtils Model.Utils Model.NACore Model.NARead Model.NCWrite
  Model.Normalize Model.Xarray Model.Collector Model.ToXarray Spec.TextSpec Spec.ToXarraySpec Spec.ReadSpec Spec.Binary64
  Proofs.StrLemmas Proofs.CollectorLemmas Props.NormalizeProps.
Import ListNotations.

Section Lemmas.
Context {num : Type} {Num : NumOps num} {Ar : ArithOps num}.
Lemma toXarray_inv (s : settings (num := num)) d o : toXarray s d = Ok o ->
  exists ffi rename axes is js,
    attr d kFFI = PInt ffi /\ ~ In ffi [2110; 2160; 2310]%Z /\
    mapNACommentsToGlobalAttributes (t_now s) (t_version s) d (t_globals s) = Ok (o_globals o) /\
    convertAxes (t_callback s) (t_warning s) (t_units s) (t_answers s) d = Ok axes /\
    selected_main d (t_vars s) = Ok is /\ mapR (convertMain (t_callback s) rename d axes) is = Ok (o_vars o) /\
    mapR (convertAux (t_callback s) rename d axes) js = Ok (o_aux o) /\
    rename = dict_of_list (map (fun p => (lower (fst p), snd p)) (t_rename s)) /\
    ((exists n, attr d kNAUXV = PInt n /\ (0 < n)%Z) /\ selected_aux d (t_aux s) = Ok js \/
     (forall n, attr d kNAUXV = PInt n -> (n <= 0)%Z) /\ js = []).
Proof.
  unfold toXarray. intros R. bindE R ffi Hf. destruct (attr d kFFI) as [| z | | |] eqn:Ef; try discriminate Hf. injection Hf as <-.
  destruct (existsb (Z.eqb z) [2110; 2160; 2310]%Z) eqn:X; [discriminate R |].
  cbv zeta in R. bindE R g Hg. bindE R axes Ha. bindE R is Hi. bindE R vars Hv. bindE R aux Hx. injection R as <-.
  cbn [o_vars o_aux o_globals].
  assert (Q : exists js, mapR (convertAux (t_callback s) (dict_of_list (map (fun p => (lower (fst p), snd p)) (t_rename s))) d axes) js = Ok aux /\
    ((exists n, attr d kNAUXV = PInt n /\ (0 < n)%Z) /\ selected_aux d (t_aux s) = Ok js \/
     (forall n, attr d kNAUXV = PInt n -> (n <= 0)%Z) /\ js = [])).
  { destruct (attr d kNAUXV) as [| n | | |] eqn:En; try (injection Hx as <-; exists []; split; [reflexivity | right; split; [discriminate | reflexivity]]).
    destruct (Z.ltb_spec 0 n) as [L | L].
    - bindE Hx js Hj. exists js. split; [exact Hx | left; split; [exists n; auto | exact Hj]].
    - injection Hx as <-. exists []. split; [reflexivity | right; split; [intros m Q; injection Q as <-; exact L | reflexivity]]. }
  destruct Q as (js & Q1 & Q2).
  exists z, (dict_of_list (map (fun p => (lower (fst p), snd p)) (t_rename s))), axes, is, js. split; [reflexivity |]. split.
  { intros I. assert (existsb (Z.eqb z) [2110; 2160; 2310]%Z = true); [| congruence].
    apply existsb_exists. exists z. split; [exact I | apply Z.eqb_refl]. }
  repeat (split; [first [assumption | reflexivity] |]). exact Q2.
Qed.
Lemma mapR_Forall2 {A B} (f : A -> Res B) l l' : mapR f l = Ok l' -> Forall2 (fun x y => f x = Ok y) l l'.
Proof.
  revert l'. induction l as [| x t IH]; intros l' R; cbn in R; [injection R as <-; constructor |].
  bindE R y Hy. bindE R ys Hys. injection R as <-. constructor; auto.
Qed.
Lemma Forall2_in_r {A B} (P : A -> B -> Prop) l l' y : Forall2 P l l' -> In y l' -> exists x, In x l /\ P x y.
Proof.
  induction 1 as [| a b l l' H _ IH]; intros []; [subst; exists a; split; [left |]; auto |].
  destruct (IH H0) as (x & I & Q). exists x. split; [right |]; auto.
Qed.
Lemma dset_lookup {A} k (v : A) l : lookup k (dset k v l) = Some v.
Proof. induction l as [| [k' v'] t IH]; cbn [dset]; [| destruct (str_eqb k k') eqn:Q]; cbn [lookup]; rewrite ?(proj2 (str_eqb_eq k k) eq_refl), ?Q; auto. Qed.
Lemma str_eqb_refl s : str_eqb s s = true. Proof. apply str_eqb_eq. reflexivity. Qed.
Lemma str_eqb_false a b : a <> b -> str_eqb a b = false.
Proof. intros N. apply not_true_is_false. intros Q. apply N, str_eqb_eq, Q. Qed.
Lemma dset_other {A} k k' (v : A) l : k' <> k -> lookup k' (dset k v l) = lookup k' l.
Proof.
  intros N. induction l as [| [k0 v0] t IH]; cbn [dset]; [cbn [lookup]; rewrite (str_eqb_false _ _ N); reflexivity |].
  destruct (str_eqb k k0) eqn:Q; cbn [lookup].
  - apply str_eqb_eq in Q as ->. rewrite (str_eqb_false _ _ N). reflexivity.
  - rewrite IH. reflexivity.
Qed.
Lemma scaled_path s (v : pyv num) : forall p x, at_path p v = Some (PNum x) -> at_path p (scaled s v) = Some (PNum (num_times x s)).
Proof.
  intros p. revert v. induction p as [| i q IH]; intros v x Q; cbn in Q; [injection Q as ->; reflexivity |].
  destruct v as [| | | | l]; try discriminate Q. cbn [scaled at_path]. rewrite nth_error_map.
  destruct (nth_error l i) as [y |]; [exact (IH _ _ Q) | discriminate Q].
Qed.
Lemma convertVariable_inv kind number fold rename info values axes i (v : xvar num) :
  convertVariable kind number fold rename info values axes i = Ok v ->
  number <> lit "title" -> number <> lit "long_name" -> number <> lit "units" ->
  exists w vals scal, info = Ok w /\ values = Ok vals /\ number_is (i_scale w) scal /\
    v_miss v = Some (i_miss w) /\ v_data v = scaled scal vals /\ v_axes v = axes /\ v_time v = None /\
    array_shape vals = Some (map ax_len axes) /\
    n_attr (v_info v) number = Some (gint (Z.of_nat i)) /\
    (let n := nc_name kind i (i_name w) in
     let n := match lookup (fold n) rename with Some m => m | None => n end in
     v_name v = safe_name n /\ n_attr (v_info v) (lit "long_name") = Some (gstr n) /\
     n_attr (v_info v) (lit "units") = match i_units w with Some (c :: t) => Some (gstr (c :: t)) | _ => None end).
Proof.
  unfold convertVariable. intros R N1 N2 N3. bindE R w Hw. bindE R vals Hvals. bindE R scal Hs.
  destruct (array_shape vals) as [sh |] eqn:Sh; [| discriminate R].
  destruct (nats_eqb sh (map ax_len axes)) eqn:Q; [| discriminate R]. cbn [negb] in R. cbv zeta in R. injection R as <-.
  exists w, vals, scal. cbn [v_miss v_data v_axes v_time v_info v_name].
  split; [exact Hw | split; [exact Hvals |]]. split.
  { destruct (i_scale w); cbn in Hs; try discriminate Hs; injection Hs as <-; [right; eauto | left; reflexivity]. }
  split; [reflexivity | split; [reflexivity | split; [reflexivity | split; [reflexivity |]]]]. split.
  { rewrite Sh. f_equal. clear - Q. revert Q. generalize (map ax_len axes). induction sh as [| x t IH]; intros [| y l]; cbn; intros Q; try discriminate Q; [reflexivity |].
    apply andb_prop in Q as [Q1 Q2]. apply Nat.eqb_eq in Q1 as ->. f_equal. apply IH, Q2. }
  unfold n_attr. cbn [n_attrs n_name].
  split; [apply dset_lookup |]. cbv zeta.
  split; [reflexivity |].
  rewrite !(dset_other number) by congruence.
  rewrite !(dset_other (lit "title")) by (intros C; vm_compute in C; discriminate C). split; [apply dset_lookup |].
  rewrite (dset_other (lit "long_name")) by (intros C; vm_compute in C; discriminate C).
  destruct (i_units w) as [[| c t] |]; reflexivity.
Qed.
Lemma main_inv callback rename d axes i (v : xvar num) : convertMain callback rename d axes i = Ok v ->
  exists miss scal values, index (attr d kVMISS) i = Ok miss /\
    (exists sv, index (attr d kVSCAL) i = Ok sv /\ number_is sv scal) /\ index (attr d kV) i = Ok values /\
    v_miss v = Some miss /\ v_data v = scaled scal values /\ v_axes v = axes /\
    n_attr (v_info v) (lit "nasa_ames_var_number") = Some (gint (Z.of_nat i)).
Proof.
  intros R. unfold convertMain in R.
  destruct (convertVariable_inv _ _ _ _ _ _ _ _ _ R) as (w & vals & scal & Hi & Hv & Hs & A & B & C & _ & _ & D & _);
    try (intros Q; vm_compute in Q; discriminate Q).
  unfold getVariable in Hi. bindE Hi p Hp. bindE Hi m Hm. bindE Hi sc Hsc. injection Hi as <-. cbn [i_miss i_scale] in *.
  exists m, scal, vals. split; [exact Hm |]. split; [exists sc; auto |]. auto 8.
Qed.
Lemma aux_inv callback rename d axes i (v : xvar num) : attr d kNAUXC = PNone -> convertAux callback rename d axes i = Ok v ->
  exists miss scal values, index (attr d kAMISS) i = Ok miss /\
    (exists sv, index (attr d kASCAL) i = Ok sv /\ number_is sv scal) /\ index (attr d kA) i = Ok values /\
    v_miss v = Some miss /\ v_data v = scaled scal values /\ v_axes v = firstn 1 axes /\
    n_attr (v_info v) (lit "nasa_ames_aux_var_number") = Some (gint (Z.of_nat i)).
Proof.
  intros Nc R. unfold convertAux in R.
  destruct (convertVariable_inv _ _ _ _ _ _ _ _ _ R) as (w & vals & scal & Hi & Hv & Hs & A & B & C & _ & _ & D & _);
    try (intros Q; vm_compute in Q; discriminate Q).
  unfold getAuxVariable in Hi. rewrite Nc in Hi. bindE Hi p Hp. bindE Hi m Hm. bindE Hi sc Hsc. injection Hi as <-. cbn [i_miss i_scale] in *.
  exists m, scal, vals. split; [exact Hm |]. split; [exists sc; auto |]. auto 8.
Qed.
End Lemmas.

(** ** C54 *)
(** Missing from the full claim: the missing value times the scale factor must be
    the missing value (as with a scale factor of 1).  Every converted value is the
    value of the file times the scale factor, [_FillValue] is the missing value of
    the file itself. *)
Theorem C54_partial : forall num (Num : NumOps num) (Ar : ArithOps num) (s : settings (num := num)) d o v,
  toXarray s d = Ok o -> In v (o_vars o) ->
  exists i miss sv scal values,
    n_attr (v_info v) (lit "nasa_ames_var_number") = Some (gint (Z.of_nat i)) /\
    index (attr d kVMISS) i = Ok miss /\ index (attr d kVSCAL) i = Ok sv /\ number_is sv scal /\ index (attr d kV) i = Ok values /\
    v_miss v = Some miss /\
    (forall p x, at_path p values = Some (PNum x) -> at_path p (v_data v) = Some (PNum (num_times x scal))) /\
    (forall p m, miss = PNum m -> num_times m scal = m -> at_path p values = Some miss -> at_path p (v_data v) = v_miss v).
Proof.
  intros num Num Ar s d o v R I. destruct (toXarray_inv _ _ _ R) as (ffi & ren & axes & is & js & _ & _ & _ & _ & _ & Hv & _).
  destruct (Forall2_in_r _ _ _ _ (mapR_Forall2 _ _ _ Hv) I) as (i & _ & Hi).
  destruct (main_inv _ _ _ _ _ _ Hi) as (miss & scal & vals & M & (sv & S1 & S2) & V & A & B & _ & D).
  exists i, miss, sv, scal, vals. rewrite A, B. repeat (split; [assumption || reflexivity |]). split; [intros p x; apply scaled_path |].
  intros p m -> Q P. rewrite (scaled_path _ _ _ _ P), Q. reflexivity.
Qed.
(** The same for auxiliary variables (of the FFIs that can be converted none has
    character variables, NAUXC). *)
Theorem C54_aux_partial : forall num (Num : NumOps num) (Ar : ArithOps num) (s : settings (num := num)) d o v,
  attr d kNAUXC = PNone -> toXarray s d = Ok o -> In v (o_aux o) ->
  exists i miss sv scal values,
    n_attr (v_info v) (lit "nasa_ames_aux_var_number") = Some (gint (Z.of_nat i)) /\
    index (attr d kAMISS) i = Ok miss /\ index (attr d kASCAL) i = Ok sv /\ number_is sv scal /\ index (attr d kA) i = Ok values /\
    v_miss v = Some miss /\
    (forall p x, at_path p values = Some (PNum x) -> at_path p (v_data v) = Some (PNum (num_times x scal))) /\
    (forall p m, miss = PNum m -> num_times m scal = m -> at_path p values = Some miss -> at_path p (v_data v) = v_miss v).
Proof.
  intros num Num Ar s d o v Nc R I. destruct (toXarray_inv _ _ _ R) as (ffi & ren & axes & is & js & _ & _ & _ & _ & _ & _ & Hv & _).
  destruct (Forall2_in_r _ _ _ _ (mapR_Forall2 _ _ _ Hv) I) as (i & _ & Hi).
  destruct (aux_inv _ _ _ _ _ _ Nc Hi) as (miss & scal & vals & M & (sv & S1 & S2) & V & A & B & _ & D).
  exists i, miss, sv, scal, vals. rewrite A, B. repeat (split; [assumption || reflexivity |]). split; [intros p x; apply scaled_path |].
  intros p m -> Q P. rewrite (scaled_path _ _ _ _ P), Q. reflexivity.
Qed.

(** Settings: everything, no renaming, no questions. *)
Definition plain_settings : settings (num := b64) := mkSet SAll SAll [] None false [] [] None (lit "2024-01-01 00:00:00") (lit "2.0").
(** A 1001 file with the given header lines and data. *)
Definition file_1001 (xname : str) (scal miss : str) (names : list str) (data : list str) : str :=
  unlines ((dec_of_nat (14 + length names) ++ lit " 1001") ::
    map lit ["A, B"; "Org"; "Src"; "Mission"; "1 1"; "1999 1 1 2000 2 2"; "0"]%pylit ++ [xname; dec_of_nat (length names); scal; miss] ++
    names ++ map lit ["0"; "0"]%pylit ++ data).
Definition converted (s : settings) (content : str) : Res (objects (num := b64)) :=
  bindR (read_file (num := b64) content 0) (fun p => toXarray s (snd p)).
Definition values_of (r : Res (objects (num := b64))) : list (pyv b64 * option (pyv b64)) :=
  match r with Ok o => map (fun v => (v_data v, v_miss v)) (o_vars o ++ o_aux o) | Err _ => [] end.
Definition f_scale1 : str := file_1001 (lit "height (m)") (lit "1") (lit "-9999") [lit "temp (K)"] (map lit ["0 280"; "10 -9999"]%pylit).
Example C54_example : values_of (converted plain_settings f_scale1) =
  [(PList [PNum (bf "280"); PNum (bf "-9999")], Some (PNum (bf "-9999")))].
Proof. vm_compute. reflexivity. Qed.
(** A file with scale factor 0.1: the missing value becomes -999.9. *)
Theorem C54_refuted : exists content d o v,
  read_file (num := b64) content 0 = Ok (C1001, d) /\ toXarray plain_settings d = Ok o /\ In v (o_vars o) /\
  index (attr d kVMISS) 0 = Ok (PNum (bf "-9999")) /\ attr d kV = PList [PList [PNum (bf "2800"); PNum (bf "-9999")]] /\
  v_miss v = Some (PNum (bf "-9999")) /\ v_data v = PList [PNum (bf "280"); PNum (bf "-999.9000000000001")].
Proof.
  set (f := file_1001 (lit "height (m)") (lit "0.1") (lit "-9999") [lit "temp (K)"] (map lit ["0 2800"; "10 -9999"]%pylit)).
  exists f.
  assert (K : match read_file (num := b64) f 0 with
              | Ok (C1001, d) => match toXarray plain_settings d with
                        | Ok o => match o_vars o with
                                  | [v] => (index (attr d kVMISS) 0, attr d kV, v_miss v, v_data v)
                                           = (Ok (PNum (bf "-9999")), PList [PList [PNum (bf "2800"); PNum (bf "-9999")]],
                                              Some (PNum (bf "-9999")), PList [PNum (bf "280"); PNum (bf "-999.9000000000001")])
                                  | _ => False
                                  end
                        | Err _ => False
                        end
              | _ => False
              end) by (vm_compute; reflexivity).
  destruct (read_file (num := b64) f 0) as [[c d] |]; [| destruct K]. destruct c; try (destruct K; fail).
  destruct (toXarray plain_settings d) as [o |] eqn:Eo; [| destruct K]. destruct (o_vars o) as [| v [|]] eqn:Ev; try (destruct K; fail).
  injection K as K1 K2 K3 K4. exists d, o, v. rewrite Ev. repeat (split; [first [assumption | reflexivity | left; reflexivity] |]). exact K4.
Qed.

Print Assumptions C54_partial.
Print Assumptions C54_aux_partial.
Print Assumptions C54_refuted.
