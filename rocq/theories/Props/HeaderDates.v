(** C131: dates and volume numbers in the header of converted dictionaries. *)
From Coq Require Import List NArith ZArith Bool Lia.
From Verif Require Import Py.Str Py.Res Py.Num Py.Arith Model.Dict Model.CommonUtils Model.NARead Model.NCWrite Model.Xarray Model.Collector Model.ToXarray Model.Api Spec.CollectorSpec
  Spec.TextSpec Spec.Binary64 Spec.HeaderSpec Spec.ToXarraySpec Spec.ValuesSpec Proofs.StrLemmas Proofs.ReadFrame Proofs.CollectorLemmas
  Proofs.ConfigLemmas Proofs.CollectorFrame Props.CollectorProps Props.ToXarrayProps Props.ToXarrayMore Props.AxisProps Props.ValuesProps Props.HeaderProps Props.ApiMore.
Import ListNotations.

(** The attribute that gives the first date, and the date that is not known. *)
Definition date_attribute : str := lit "first_valid_date_of_data".
Definition three (y m d : Z) {num} : pyv num := PList [PInt y; PInt m; PInt d].

Section Dates.
Context {num : Type} {Num : NumOps num} {Ar : ArithOps num}.
Variable E : env num.
Local Notation gst := (gst (num := num)).
Lemma item_no_date n v (s s' : gst) : n <> date_attribute -> global_item E (n, v) s = Ok s' -> gs_na s' kDATE = gs_na s kDATE.
Proof.
  unfold global_item. cbv zeta. intros Nk R.
  destruct (str_eqb n (lit "first_valid_date_of_data")) eqn:Q; [apply str_eqb_eq in Q; contradiction |].
  destruct (negb (negb (g_np v) && match g_val v with PStr _ | PInt _ | PNum _ => true | _ => false end)); [injection R as <-; reflexivity |].
  destruct (str_eqb n (lit "history")). { bindE R t Ht. injection R as <-. reflexivity. }
  destruct (str_eqb n (lit "institution")).
  { destruct (g_val v); try discriminate R. destruct (match institution_match s0 with Some p => p | None => (s0, s0) end). injection R as <-. reflexivity. }
  destruct (str_eqb n (lit "comment")).
  { destruct (g_val v); try discriminate R. destruct (sort_comments (split_chr c_nl s0) false false). injection R as <-. reflexivity. }
  destruct (lookup n plain_map) as [key |] eqn:L; [| bindE R t Ht; injection R as <-; reflexivity].
  injection R as <-. cbn [gs_na]. unfold plain_map in L. cbn [lookup] in L.
  repeat (match type of L with (if ?b then _ else _) = _ => destruct b end; [injection L as <-; reflexivity |]). discriminate L.
Qed.
Lemma items_no_date gl (s s' : gst) : ~ In date_attribute (map fst gl) -> forR gl (global_item E) s = Ok s' -> gs_na s' kDATE = gs_na s kDATE.
Proof.
  intros N R. refine (forR_inv (fun x => gs_na x kDATE = gs_na s kDATE) _ _ _ _ _ R eq_refl). intros (n, v) s1 s2 I Q P. rewrite <- P.
  refine (item_no_date n v _ _ _ Q). intros ->. apply N. apply (in_map fst) in I. exact I.
Qed.
Lemma items_date gl v (s s' : gst) : NoDup (map fst gl) -> In (date_attribute, v) gl -> forR gl (global_item E) s = Ok s' -> gs_na s' kDATE = Some (g_val v).
Proof.
  intros Nd I R. destruct (in_split _ _ I) as (l1 & l2 & ->). rewrite forR_app in R. bindE R s1 H1. cbn [forR] in R. bindE R s2 H2.
  rewrite map_app in Nd. cbn [map fst] in Nd. apply NoDup_remove_2 in Nd. rewrite in_app_iff in Nd.
  rewrite (items_no_date l2 s2 s') by tauto. unfold global_item in H2. cbv zeta in H2. unfold date_attribute in H2. rewrite str_eqb_same in H2.
  destruct (numpy_scalar v); [discriminate H2 |]. injection H2 as <-. reflexivity.
Qed.
End Dates.

(** ** C131 *)
(** Every converted dictionary has today as the date of revision and is volume 1
    of 1.  When the first axis of the first main variable is a time, the first
    date is the one of its first value, or 999 999 999 when it is not known;
    otherwise it is the attribute of the file, or 999 999 999. *)
Theorem C131_header : forall num (Num : NumOps num) (Ar : ArithOps num) (E : env num) req globals (vars : list (xvar num)) cs c,
  convert E req globals vars = Ok (Some cs) -> In c cs -> NoDup (map fst globals) ->
  exists d v vs ax axs, c_na c = Some d /\ c_main c = v :: vs /\ v_axes v = ax :: axs /\
    d kRDATE = Some (PList (map PInt (e_today E))) /\ d kIVOL = Some (PInt 1) /\ d kNVOL = Some (PInt 1) /\
    (forall x l date, ax_time ax = Some (x :: l) -> n_enc_units (ax_info ax) <> [] -> e_date E x (n_enc_units (ax_info ax)) = Some date ->
       d kDATE = Some (PList (map PInt date))) /\
    (forall nums, ax_time ax = Some nums ->
       nums = [] \/ n_enc_units (ax_info ax) = [] \/ (exists x l, nums = x :: l /\ e_date E x (n_enc_units (ax_info ax)) = None) ->
       d kDATE = Some (three 999 999 999)) /\
    (ax_time ax = None -> forall g, In (date_attribute, g) globals -> d kDATE = Some (g_val g)) /\
    (ax_time ax = None -> ~ In date_attribute (map fst globals) -> d kDATE = Some (three 999 999 999)).
Proof.
  intros num Num Ar E req globals vars cs c R I Nd.
  destruct (convert_each E _ _ _ _ _ R I) as (vs & C & Nc & _). destruct (c_na c) as [d |] eqn:Ec; [| congruence].
  destruct (collect_steps E _ _ _ _ _ C Ec) as (a & d1 & d2 & g & d3 & v0 & ax0 & Ha & H1 & H2 & Hg & H3 & Hv & Hx & Ed & Em & _).
  rewrite Em. destruct (a_main a) as [| v mv]; [discriminate Hv |]. injection Hv as <-. destruct (v_axes v) as [| ax axs] eqn:Ea; [discriminate Hx |]. injection Hx as <-.
  assert (K3 : d3 kDATE = gs_na g kDATE) by (apply (comments_frame _ _ _ _ H3); cbn; intuition discriminate).
  assert (K2 : d2 kDATE = None).
  { rewrite (same_aux E _ _ _ H2 kDATE) by (cbn; intuition discriminate). rewrite (same_vars E _ _ _ _ _ H1 kDATE) by (cbn; intuition discriminate).
    destruct (a_nvpm a); reflexivity. }
  exists d, v, mv, ax, axs. split; [reflexivity |]. split; [reflexivity |]. split; [exact Ea |]. subst d. unfold defineNAGlobals in Hg.
  unfold defineGeneralHeader, is_time, ax_nums, ints. cbv zeta. split.
  { destruct (ax_time ax); [reflexivity |]. destruct (upd d3 kRDATE _ kDATE); reflexivity. }
  split; [reflexivity |]. split; [reflexivity |]. split; [| split; [| split]].
  - intros x l date T U D. rewrite T, D. destruct (n_enc_units (ax_info ax)); [contradiction |]. reflexivity.
  - intros nums T Or. rewrite T. destruct nums as [| x l]; [reflexivity |]. destruct Or as [Q | [Q | (y & m & Q & Dn)]]; [discriminate Q | rewrite Q; reflexivity |].
    injection Q as <- <-. rewrite Dn. destruct (n_enc_units (ax_info ax)); reflexivity.
  - intros T gv Ig. rewrite T. assert (K := items_date E _ _ _ _ Nd Ig Hg). rewrite <- K3 in K.
    change (upd d3 kRDATE (PList (map PInt (e_today E))) kDATE) with (d3 kDATE). rewrite K. exact K.
  - intros T Ng. rewrite T. assert (K := items_no_date E _ _ _ Ng Hg). rewrite <- K3 in K. cbn [gs_na] in K. rewrite K2 in K.
    change (upd d3 kRDATE (PList (map PInt (e_today E))) kDATE) with (d3 kDATE). rewrite K. reflexivity.
Qed.
Print Assumptions C131_header.
Lemma file_ten num (Num : NumOps num) (Ar : ArithOps num) (s : settings (num := num)) (d : na num) ob : toXarray s d = Ok ob -> t_globals s = [] ->
  exists ten, file_attributes ob = ten /\ NoDup (map fst ten) /\ In (date_attribute, mkG false (attr d kDATE)) ten.
Proof.
  intros X G0.
  destruct (toXarray_inv _ _ _ X) as (ffi & ren & axes & is & js & _ & _ & Hg & _). rewrite G0 in Hg.
  unfold mapNACommentsToGlobalAttributes in Hg. bindE Hg g Gg. cbn [mapR bindR] in Hg. apply Ok_inj in Hg.
  unfold glob_atts in Gg. cbv zeta in Gg. bindE Gg iv Hi. bindE Gg hv Hh. bindE Gg com Hc. apply Ok_inj in Gg.
  match type of Gg with fold_left _ ?l _ = _ => set (ten := l) in Gg end. change (dict_of_list ten = g) in Gg.
  assert (Nt : NoDup (map fst ten)). { unfold ten. cbn [map fst]. repeat (constructor; [cbn [In]; intuition discriminate |]). constructor. }
  rewrite (dict_of_nodup _ Nt) in Gg. subst g.
  assert (Ef : file_attributes ob = ten). { unfold file_attributes. rewrite <- Hg. cbn [app map mem_str]. rewrite filter_all. apply dict_of_nodup, Nt. }
  exists ten. split; [exact Ef |]. split; [exact Nt |]. unfold ten. cbn [In]. do 8 right. left. reflexivity.
Qed.
(** From a NASA Ames dictionary to variables and back: the first date is as it
    was, unless the first axis is a time. *)
Theorem C131_back_partial : forall num (Num : NumOps num) (Ar : ArithOps num) (s : settings (num := num)) (d : na num) ob (E : env num) req vars cs c,
  toXarray s d = Ok ob -> t_globals s = [] -> convert E req (file_attributes ob) vars = Ok (Some cs) -> In c cs ->
  exists d' v vs ax axs, c_na c = Some d' /\ c_main c = v :: vs /\ v_axes v = ax :: axs /\ (ax_time ax = None -> d' kDATE = Some (attr d kDATE)).
Proof.
  intros num Num Ar s d ob E req vars cs c X G0 R I.
  destruct (file_ten _ _ _ _ _ _ X G0) as (ten & Ef & Nt & It).
  rewrite Ef in R. destruct (C131_header _ _ _ E _ _ _ _ _ R I Nt) as (d' & v & vs & ax & axs & A1 & A2 & A3 & _ & _ & _ & _ & _ & K & _).
  exists d', v, vs, ax, axs. do 3 (split; [assumption |]). intros T. apply (K T (mkG false (attr d kDATE))). exact It.
Qed.
Print Assumptions C131_back_partial.
(** The same through a NetCDF file, where the date is an array of numpy. *)
Theorem C131_file_partial : forall num (Num : NumOps num) (Ar : ArithOps num) (s : settings (num := num)) (d : na num) ob (E : env num) req globals vars cs c,
  toXarray s d = Ok ob -> t_globals s = [] -> fix_attrs (file_attributes ob) = Ok globals -> attr d kDATE <> PStr [] ->
  convert E req globals vars = Ok (Some cs) -> In c cs ->
  exists d' v vs ax axs, c_na c = Some d' /\ c_main c = v :: vs /\ v_axes v = ax :: axs /\ (ax_time ax = None -> d' kDATE = Some (attr d kDATE)).
Proof.
  intros num Num Ar s d ob E req globals vars cs c X G0 Fx Ne R I. destruct (file_ten _ _ _ _ _ _ X G0) as (ten & Ef & Nt & It). rewrite Ef in Fx.
  pose proof (C74_kept_partial _ _ _ Fx) as F. 
  assert (K : NoDup (map fst globals) /\ exists g, In (date_attribute, g) globals /\ g_val g = attr d kDATE).
  { split.
    - replace (map fst globals) with (map fst ten); [exact Nt |]. clear - F. induction F as [| p q l m (A & _) F IH]; [reflexivity |]. cbn [map]. congruence.
    - clear - F It Ne. induction F as [| p q l m (A & B) F IH]; [destruct It |]. destruct It as [-> | It].
      + exists (snd q). cbn [fst snd g_val] in A, B. split; [left; rewrite <- A; destruct q; reflexivity | apply B, Ne].
      + destruct (IH It) as (g & Ig & V). exists g. split; [right; exact Ig | exact V]. }
  destruct K as (Ng & g & Ig & V). destruct (C131_header _ _ _ E _ _ _ _ _ R I Ng) as (d' & v & vs & ax & axs & A1 & A2 & A3 & _ & _ & _ & _ & _ & K & _).
  exists d', v, vs, ax, axs. do 3 (split; [assumption |]). intros T. rewrite <- V. apply (K T g Ig).
Qed.
Print Assumptions C131_file_partial.
Definition volume_file : str :=
  unlines (map lit ["15 1001"; "A, B"; "Org"; "Src"; "Mission"; "2 3"; "1999 1 1 2000 2 2"; "0"; "height (m)"; "1"; "1"; "-9999"; "temp (K)"; "0"; "0"; "0 280"; "10 281"]%pylit).
Example C131_example : there_and_back volume_file [kDATE; kRDATE; kIVOL; kNVOL] = [[three 1999 1 1; three 2024 1 1; PInt 1; PInt 1]].
Proof. vm_compute. reflexivity. Qed.
Example C131_file_example :
  match converted plain_settings volume_file with
  | Ok ob => match fix_attrs (file_attributes ob) with
             | Ok globals => match convert env_b None globals (o_vars ob) with
                             | Ok (Some [c]) => (option_map (@g_np b64) (lookup date_attribute globals), match c_na c with Some d => d kDATE | None => None end)
                             | _ => (None, None)
                             end
             | Err _ => (None, None)
             end
  | Err _ => (None, None)
  end = (Some true, Some (three 1999 1 1)).
Proof. vm_compute. reflexivity. Qed.
(** False of the code: volume 2 of 3 comes back as volume 1 of 1. *)
Theorem C131_refuted : exists content d, read_file (num := b64) content 0 = Ok (C1001, d) /\ attr d kIVOL = PInt 2 /\ attr d kNVOL = PInt 3 /\
  there_and_back content [kIVOL; kNVOL] = [[PInt 1; PInt 1]].
Proof. exists volume_file. eexists. split; [vm_compute; reflexivity |]. repeat split; vm_compute; reflexivity. Qed.
Print Assumptions C131_refuted.
(** A time axis with units that are known, and with none. *)
Definition env_t : env Z :=
  mkEnv (e_uniform env_Z) (e_now env_Z) (e_today env_Z) (e_version env_Z) (e_fill env_Z) (e_aux_miss env_Z) (e_one env_Z)
    (fun n u => if str_eqb u (lit "days since 2000-01-01") then Some [2000; 1; n + 1]%Z else None).
Definition dates_of (units : str) (globals : list (str * gval Z)) : list (option (pyv Z)) :=
  match convert env_t None globals [var (lit "p") [] [mkAx (mkNamed (lit "time") [] units) [None; None; None; None] [3; 4]%Z (Some [3; 4]%Z)] (data [1; 2]%Z)] with
  | Ok (Some cs) => map (fun c => match c_na c with Some d => d kDATE | None => None end) cs
  | _ => []
  end.
Example C131_time : dates_of (lit "days since 2000-01-01") [] = [Some (three 2000 1 4)] /\ dates_of (lit "fortnights") [] = [Some (three 999 999 999)] /\
  dates_of [] [(date_attribute, mkG false (three 1999 1 1))] = [Some (three 999 999 999)].
Proof. vm_compute. auto. Qed.
