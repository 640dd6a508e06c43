(** When the conversion of a dictionary to xarray objects succeeds. *)
From Coq Require Import List NArith ZArith Bool Lia.
From Verif Require Import Py.Str Py.Res Py.Num Py.Arith Model.Dict Model.CommonUtils Model.NARead Model.NACore Model.Normalize
  Model.Xarray Model.Collector Model.ToXarray Spec.ReadSpec Proofs.ReadFrame Proofs.ReadFile Proofs.StrLemmas Proofs.CollectorLemmas
  Props.NormalizeProps Props.ToXarrayProps.
Import ListNotations.

Section Convertible.
Context {num : Type} {Num : NumOps num} {Ar : ArithOps num}.
Local Notation pyv := (pyv num).
Local Notation na := (na num).

(** ** Shapes *)
Lemma nats_eqb_refl l : nats_eqb l l = true.
Proof. induction l; cbn; [reflexivity|]. now rewrite Nat.eqb_refl. Qed.
Lemma nats_eqb_true a : forall b, nats_eqb a b = true -> a = b.
Proof.
  induction a as [|x a IH]; intros [|y b] E; cbn in E; try discriminate; [reflexivity|].
  apply andb_prop in E as [E1 E2]. apply Nat.eqb_eq in E1 as ->. f_equal. auto.
Qed.
Lemma shaped_shape dims : forall v : pyv, Forall (fun k => 0 < k)%nat dims -> shaped dims v -> array_shape v = Some dims.
Proof.
  induction dims as [|k rest IH]; intros v P S; cbn [shaped] in S.
  - destruct S as [x ->]. reflexivity.
  - destruct S as (l & -> & L & F). inversion P as [|? ? P1 P2]; subst.
    destruct l as [|x t]; [cbn in P1; lia|]. inversion F as [|? ? F1 F2]; subst. cbn [array_shape]. rewrite (IH x P2 F1).
    replace (forallb _ t) with true; [reflexivity|]. symmetry. apply forallb_forall. intros y Hy.
    rewrite Forall_forall in F2. rewrite (IH y P2 (F2 y Hy)). apply nats_eqb_refl.
Qed.
Lemma shape_shaped dims : forall (v : pyv) L, Forall (fun k => 0 < k)%nat L -> shaped dims v -> array_shape v = Some L -> L = dims.
Proof.
  induction dims as [|k rest IH]; intros v L P S E; cbn [shaped] in S.
  - destruct S as [x ->]. cbn in E. congruence.
  - destruct S as (l & -> & <- & F). destruct l as [|x t].
    + cbn in E. injection E as <-. inversion P; lia.
    + cbn [array_shape] in E. destruct (array_shape x) as [s|] eqn:Es; [|discriminate].
      destruct (forallb _ t); [|discriminate]. injection E as <-. f_equal. inversion P; subst. inversion F; subst. eauto.
Qed.

(** ** Numbers *)
Lemma nums_of_ok (l : list pyv) : Forall is_num l -> exists vals, nums_of (PList l) = Ok vals /\ length vals = length l.
Proof.
  intros F. cbn [nums_of]. destruct (ReadFrame.mapR_ok (fun x => match x with PNum n => Ok n | _ => Err EUnmodelled end) l) as [r R].
  - intros x I. rewrite Forall_forall in F. destruct (F x I) as [n ->]. eauto.
  - exists r. split; [exact R|]. apply (mapR_length _ _ _ R).
Qed.
Lemma nums_of_inv (v : pyv) vals : nums_of v = Ok vals -> exists l, v = PList l /\ Forall is_num l /\ length vals = length l.
Proof.
  destruct v as [| | | |l]; try discriminate. cbn [nums_of]. intros R. exists l. split; [reflexivity|].
  split; [|apply (mapR_length _ _ _ R)]. apply mapR_Forall2 in R. clear -R. induction R as [|x y l r E R IH]; constructor; auto.
  destruct x; try discriminate. eexists; reflexivity.
Qed.

(** ** One axis *)
Definition answered (warning : bool) (k : asked) : Prop := warning = false \/ k_units k <> None.
Definition axis_values (d : na) (niv : Z) (i : nat) : Res pyv := if (niv =? 1)%Z then Ok (attr d kX) else index (attr d kX) i.
Lemma convertAxis_ok callback warning (d : na) i k niv l s :
  attr d kNIV = PInt niv -> axis_values d niv i = Ok (PList l) -> Forall is_num l -> l <> [] ->
  index (attr d kXNAME) i = Ok (PStr s) -> answered warning k ->
  exists a k', convertAxis callback warning d i k = Ok (a, k') /\ ax_len a = length l /\ answered warning k'.
Proof.
  intros Hn Hx Hl Hne Hs Hk. unfold convertAxis, axis_values in *. rewrite Hn. cbn [as_int bindR]. rewrite Hx. cbn [bindR].
  destruct (nums_of_ok l Hl) as (vals & E & L). rewrite E. cbn [bindR]. rewrite Hs. cbn [bindR as_str].
  destruct (attemptVarAndUnitsMatch callback s) as [name units].
  destruct (is_nil vals) eqn:En; [destruct vals; [destruct l; [congruence|discriminate]|discriminate]|].
  destruct (axis_type _) as [[t u]|];
  (match goal with |- context [if ?b then (do q <- _; _)%res else Ok _] => destruct b end;
   [destruct (k_units k) as [w|] eqn:Ku; cbn [bindR fst snd];
    [|destruct Hk as [-> | Hk]; [|congruence]; cbn [bindR fst snd]]|cbn [bindR]]);
  (eexists; eexists; split; [reflexivity|]; split; [exact L|]; (exact Hk || (right; discriminate))).
Qed.
Lemma convertAxis_inv callback warning (d : na) i k niv a k' :
  attr d kNIV = PInt niv -> convertAxis callback warning d i k = Ok (a, k') ->
  exists l, axis_values d niv i = Ok (PList l) /\ Forall is_num l /\ l <> [] /\ ax_len a = length l.
Proof.
  intros Hn E. unfold convertAxis, axis_values in *. rewrite Hn in E. cbn [as_int bindR] in E. bindE E v Hv. bindE E vals Hw.
  apply nums_of_inv in Hw as (l & -> & Fl & L). exists l. split; [exact Hv|]. split; [exact Fl|].
  bindE E xn Hxn. bindE E ln Hln. destruct (attemptVarAndUnitsMatch callback ln) as [name units].
  destruct (axis_type _) as [[t u]|];
  (destruct (is_nil vals) eqn:En; [discriminate|]; bindE E r Hr; destruct r as [[at1 enc] k1]; injection E as <- _;
   split; [intros ->; destruct vals; discriminate|exact L]).
Qed.

(** ** The loop over the axes *)
Definition axes_loop callback warning (d : na) l s :=
  forR l (fun i s => (do q <- convertAxis callback warning d i (snd s); Ok (fst s ++ [fst q], snd q))%res) s.
Lemma axes_loop_ok callback warning (d : na) niv xs : attr d kNIV = PInt niv ->
  forall n a acc k, answered warning k ->
  (forall i, (a <= i < a + n)%nat -> exists l s, axis_values d niv i = Ok (PList l) /\ Forall is_num l /\ l <> [] /\
     index (attr d kXNAME) i = Ok (PStr s) /\ nth_error xs i = Some (length l)) ->
  exists as' k', axes_loop callback warning d (seq a n) (acc, k) = Ok (acc ++ as', k') /\ map ax_len as' = firstn n (skipn a xs).
Proof.
  intros Hn. induction n as [|n IH]; intros a acc k Hk Hi.
  - exists [], k. cbn. now rewrite app_nil_r.
  - cbn [seq axes_loop forR fst snd]. destruct (Hi a) as (l & s & A & B & C & D & E); [lia|].
    destruct (convertAxis_ok callback warning d a k niv l s Hn A B C D Hk) as (x & k1 & E1 & L1 & K1). rewrite E1. cbn [bindR fst snd].
    destruct (IH (S a) (acc ++ [x]) k1 K1) as (as' & k' & E2 & L2); [intros i I; apply Hi; lia|].
    exists (x :: as'), k'. unfold axes_loop in E2. rewrite E2, <- app_assoc. split; [reflexivity|]. cbn [map].
    rewrite L1, L2. assert (Q : skipn a xs = length l :: skipn (S a) xs).
    { clear -E. revert xs E. induction a as [|a IHa]; intros [|y xs] E; cbn in E; try discriminate; [injection E as ->; reflexivity|].
      apply IHa in E. exact E. }
    rewrite Q. reflexivity.
Qed.
Lemma axes_loop_inv callback warning (d : na) niv : attr d kNIV = PInt niv ->
  forall n a acc k as0 k0, axes_loop callback warning d (seq a n) (acc, k) = Ok (as0, k0) ->
  exists as', as0 = acc ++ as' /\ length as' = n /\
    forall i x, nth_error as' i = Some x ->
      exists l, axis_values d niv (a + i) = Ok (PList l) /\ Forall is_num l /\ l <> [] /\ ax_len x = length l.
Proof.
  intros Hn. induction n as [|n IH]; intros a acc k as0 k0 E.
  - cbn in E. injection E as <- _. exists []. rewrite app_nil_r. repeat split. intros [|i] x I; discriminate.
  - cbn [seq axes_loop forR fst snd] in E. destruct (convertAxis callback warning d a k) as [[x k1]|] eqn:E1; cbn [bindR fst snd] in E; [|discriminate].
    destruct (IH _ _ _ _ _ E) as (as' & -> & L & A). exists (x :: as'). rewrite <- app_assoc. split; [reflexivity|]. split; [cbn; congruence|].
    intros [|i] y I; cbn in I.
    + injection I as <-. rewrite Nat.add_0_r. exact (convertAxis_inv _ _ _ _ _ _ _ _ Hn E1).
    + rewrite Nat.add_succ_r. apply (A i y I).
Qed.

(** ** Global attributes *)
Lemma kept_ok known (l : list str) : exists t, kept_lines (num := num) known (PList (map PStr l)) = Ok t.
Proof.
  unfold kept_lines. cbn [as_list bindR]. destruct (ReadFrame.mapR_ok (as_str (num := num)) (map PStr l)) as [r R].
  - intros x I. apply in_map_iff in I as (s & <- & _). exists s. reflexivity.
  - rewrite R. cbn [bindR]. eauto.
Qed.
Lemma lookup_dset_none {A} k k' (v : A) l : lookup k l <> None -> lookup k (dset k' v l) <> None.
Proof.
  intros L. destruct (str_eqb k k') eqn:Q.
  - apply str_eqb_eq in Q as ->. rewrite dset_lookup. discriminate.
  - rewrite dset_other; [exact L|]. intros ->. rewrite str_eqb_refl in Q. discriminate.
Qed.
Lemma lookup_fold {A} k (ps : list (str * A)) : forall g, lookup k g <> None \/ In k (map fst ps) ->
  lookup k (fold_left (fun g p => dset (fst p) (snd p) g) ps g) <> None.
Proof.
  induction ps as [|[k' v'] ps IH]; intros g L; cbn [fold_left fst snd]; [destruct L as [L|[]]; exact L|].
  apply IH. destruct L as [L | [<- | L]]; [left; now apply lookup_dset_none | left | right; exact L].
  rewrite dset_lookup. discriminate.
Qed.
Lemma globals_ok now version (d : na) user :
  (forall k, In k [kONAME; kORG] -> exists s, d k = Some (PStr s)) ->
  (exists a b c, d kRDATE = Some (PList [PInt a; PInt b; PInt c])) -> comments_read d ->
  exists g, mapNACommentsToGlobalAttributes now version d user = Ok g.
Proof.
  intros Hs (y & m & dd & Hr) (n & k & sc & nc & C1 & C2 & _ & C3 & C4 & _). unfold mapNACommentsToGlobalAttributes.
  assert (G : exists g, glob_atts now version d user = Ok g /\ forall key, In key (map fst user) -> lookup key g <> None).
  { unfold glob_atts, institution, history, comment_line.
    destruct (Hs kONAME) as [o Ho]; [cbn; tauto|]. destruct (Hs kORG) as [r Hg]; [cbn; tauto|].
    unfold attr. rewrite Ho, Hg, Hr, C1, C2, C3, C4. cbn [fmt_s bindR as_list as_int].
    destruct (kept_ok special_known sc) as [t1 ->]. destruct (kept_ok normal_known nc) as [t2 ->].
    destruct (0 <? n)%Z, (0 <? k)%Z; cbn [bindR]; (eexists; split; [reflexivity|]; intros key I; apply lookup_fold; left;
      unfold dict_of_list; apply lookup_fold; right; exact I). }
  destruct G as (g & Eg & Lg). rewrite Eg. cbn [bindR].
  destruct (ReadFrame.mapR_ok (fun p : str * gval num => (do v <- of_opt EKeyError (lookup (fst p) g); Ok (fst p, v))%res) user) as [f F].
  - intros p I. destruct (lookup (fst p) g) as [v|] eqn:L; [cbn; eauto|]. exfalso. apply (Lg (fst p)); [apply in_map, I|exact L].
  - rewrite F. cbn [bindR]. eauto.
Qed.

(** ** Variables *)
Lemma convertVariable_ok kind number fold rename w values axes i sc :
  i_scale w = PNum sc -> array_shape values = Some (map ax_len axes) ->
  exists v : xvar num, convertVariable kind number fold rename (Ok w) (Ok values) axes i = Ok v.
Proof.
  intros E S. unfold convertVariable. cbn [bindR]. rewrite E, S. cbn [as_num bindR]. rewrite nats_eqb_refl. cbn [negb]. eauto.
Qed.
Lemma nth_typed t (l : list pyv) i : Forall (of_type t) l -> (i < length l)%nat -> exists v, nth_res l i = Ok v /\ of_type t v.
Proof.
  intros F L. unfold nth_res. destruct (nth_error l i) as [v|] eqn:E; [|apply nth_error_None in E; lia].
  exists v. split; [reflexivity|]. rewrite Forall_forall in F. apply F. eapply nth_error_In, E.
Qed.
Lemma main_ok callback rename (d : na) axes nv vs vm vn V dims i :
  vars_read d nv vs vm vn -> attr d kV = PList V -> length V = Z.to_nat nv -> Forall (shaped dims) V ->
  map ax_len axes = dims -> Forall (fun k => 0 < k)%nat dims -> (i < Z.to_nat nv)%nat ->
  exists v, convertMain callback rename d axes i = Ok v.
Proof.
  intros R HV LV SV A P I. destruct R as [R1 R2 R3 R4 R5 R6 R7 R8 R9 R10 R11].
  unfold convertMain, getVariable, name_of, NACore.getMissingValue, NACore.getScaleFactor. rewrite HV. unfold attr.
  rewrite R2, R3, R4.
  unfold index. cbn [as_list bindR].
  destruct (nth_typed _ _ i R11) as (x & -> & (s & ->)); [lia|]. destruct (nth_typed _ _ i R10) as (m & -> & _); [lia|].
  destruct (nth_typed _ _ i R9) as (sc & -> & (n & ->)); [lia|]. cbn [bindR as_str].
  unfold nth_res. destruct (nth_error V i) as [v|] eqn:E; [|apply nth_error_None in E; lia]. cbn [of_opt].
  eapply convertVariable_ok; [reflexivity|]. rewrite A. apply shaped_shape; [exact P|]. rewrite Forall_forall in SV. apply SV. eapply nth_error_In, E.
Qed.
Lemma aux_ok callback rename (d : na) axes n As k i :
  aux_read d n -> d kNAUXC = None -> attr d kA = PList As -> length As = Z.to_nat n -> Forall (column k) As ->
  map ax_len (firstn 1 axes) = [k] -> (0 < k)%nat -> (i < Z.to_nat n)%nat ->
  exists v, convertAux callback rename d axes i = Ok v.
Proof.
  intros [R1 R2] Nc HA LA SA A P I. destruct R2 as (vs & vm & vn & R2 & R3 & R4 & R6 & R7 & R8 & R9 & R10 & R11); [lia|].
  unfold convertAux, getAuxVariable, name_of, getAuxMissingValue, getAuxScaleFactor. rewrite HA. unfold attr. rewrite Nc, R2, R3, R4. cbn [default_attr].
  unfold index. cbn [as_list bindR].
  destruct (nth_typed _ _ i R11) as (x & -> & (s & ->)); [lia|]. destruct (nth_typed _ _ i R10) as (m & -> & _); [lia|].
  destruct (nth_typed _ _ i R9) as (sc & -> & (nn & ->)); [lia|]. cbn [bindR as_str].
  unfold nth_res. destruct (nth_error As i) as [v|] eqn:E; [|apply nth_error_None in E; lia]. cbn [of_opt].
  eapply convertVariable_ok; [reflexivity|]. rewrite A. apply shaped_shape; [constructor; auto|]. rewrite Forall_forall in SA. 
  destruct (SA v (nth_error_In _ _ E)) as (l & -> & L & F). exists l. auto.
Qed.

(** ** Everything *)
Lemma toXarray_ok (s : settings (num := num)) (h d : na) line c ignore ffi axes dims :
  t_vars s = SAll -> t_aux s = SAll ->
  header_read c h line ignore -> (forall k, ~ In k data_keys -> d k = h k) -> c <> C2160 ->
  attr d kFFI = PInt ffi -> ~ In ffi [2110; 2160; 2310]%Z ->
  convertAxes (t_callback s) (t_warning s) (t_units s) (t_answers s) d = Ok axes ->
  map ax_len axes = dims -> Forall (fun k => 0 < k)%nat dims ->
  (exists nv V, attr d kNV = PInt nv /\ attr d kV = PList V /\ length V = Z.to_nat nv /\ Forall (shaped dims) V) ->
  (c = C1001 \/ exists n k rest, dims = k :: rest /\ attr d kNAUXV = PInt n /\ columns n k (attr d kA)) ->
  exists o, toXarray s d = Ok o.
Proof.
  intros Sv Sa R Fr Nc Hf Hn Hx Hd Hp (nv & V & N1 & N2 & N3 & N4) Hau.
  assert (Sm : same_except data_keys h d) by exact Fr.
  unfold toXarray. rewrite Hf. cbn [as_int bindR].
  replace (existsb (Z.eqb ffi) [2110; 2160; 2310]%Z) with false.
  2:{ symmetry. apply not_true_is_false. intros Q. apply existsb_exists in Q as (z & I & Q). apply Z.eqb_eq in Q as ->. contradiction. }
  destruct (hr_common _ _ _ _ R) as (ffi' & nlh & C).
  destruct (globals_ok (t_now s) (t_version s) d (t_globals s)) as [g Eg].
  { intros k I. rewrite Fr; [apply (mr_strs _ _ _ _ _ C); cbn in I |- *; tauto|cbn in I |- *; destruct I as [<- | [<- | []]]; intuition discriminate]. }
  { rewrite Fr; [apply (mr_rdate _ _ _ _ _ C)|cbn; intuition discriminate]. }
  { destruct (hr_com _ _ _ _ R) as (a & b & sc & nc & K). exists a, b, sc, nc. rewrite !Fr by (cbn; intuition discriminate). exact K. }
  cbv zeta. rewrite Eg. cbn [bindR]. rewrite Hx. cbn [bindR]. unfold selected_main. rewrite Sv, N1. cbn [as_int bindR].
  destruct (hr_vars _ _ _ _ R) as (nv' & vs & vm & vn & Rv). assert (Rv' : vars_read d nv' vs vm vn).
  { destruct Rv. split; rewrite ?Fr by (cbn; intuition discriminate); assumption. }
  assert (nv' = nv) as -> by (pose proof (vr_nv _ _ _ _ _ Rv') as Q; unfold attr in N1; rewrite Q in N1; congruence).
  match goal with |- context [mapR ?f (range nv)] => destruct (ReadFrame.mapR_ok f (range nv)) as [vars Ev] end.
  { intros i I. unfold range in I. apply in_seq in I. eapply main_ok; try eassumption. lia. }
  rewrite Ev. cbn [bindR].
  assert (Hc1 : c = C1001 -> attr d kNAUXV = PNone).
  { intros ->. unfold attr. rewrite Fr by (cbn; intuition discriminate). destruct (hr_aux _ _ _ _ R) as [-> _]. reflexivity. }
  destruct Hau as [-> | (n & k & rest & -> & A1 & A2)]; [rewrite Hc1 by reflexivity; cbn [bindR]; eauto|].
  destruct c; try congruence; try (rewrite Hc1 in A1 by reflexivity; discriminate);
  (destruct (hr_aux _ _ _ _ R) as [(n' & Ra) Rc]; assert (Ra' : aux_read d n') by
     (destruct Ra as [Ra1 Ra2]; split; rewrite !Fr by (cbn; intuition discriminate); assumption);
   assert (n' = n) as -> by (pose proof (ar_n _ _ Ra') as Q; unfold attr in A1; rewrite Q in A1; congruence);
   rewrite A1; destruct (Z.ltb_spec 0 n); cbn [bindR]; [|eauto];
   unfold selected_aux; rewrite Sa, A1; cbn [as_int bindR];
   match goal with |- context [mapR ?f (range n)] => destruct (ReadFrame.mapR_ok f (range n)) as [aux Ea] end;
   [|rewrite Ea; cbn [bindR]; eauto];
   intros i I; unfold range in I; apply in_seq in I; destruct A2 as (As & A2 & A3 & A4);
   eapply aux_ok; try eassumption; [rewrite Fr by (cbn; intuition discriminate); exact Rc| |inversion Hp; assumption|lia];
   destruct axes as [|x axes]; [discriminate|]; cbn [firstn map] in *; congruence).
Qed.
End Convertible.

(** ** Expansion of the bounded axes *)
Section Bounded.
Context {num : Type} {Num : NumOps num} {Ar : ArithOps num}.
Local Notation pyv := (pyv num).
Local Notation na := (na num).
Lemma extend_ok nx dv fuel : forall (x : list pyv) count, Forall is_num x -> length x = S count -> (Z.to_nat nx <= length x + fuel)%nat ->
  exists x', extend fuel x count nx (Ok (PNum dv)) = Ok x' /\ Forall is_num x'.
Proof.
  induction fuel as [|fuel IH]; intros x count F L B; cbn [extend]; destruct (Z.ltb_spec (Z.of_nat (length x)) nx) as [Q|Q]; try (eauto; fail); [lia|].
  unfold nth_res. destruct (nth_error x count) as [v|] eqn:E; [|apply nth_error_None in E; lia]. cbn [of_opt bindR].
  destruct (proj1 (Forall_forall _ _) F v (nth_error_In _ _ E)) as [y ->]. cbn [pv_add bindR]. apply IH.
  - apply Forall_app. split; [exact F|]. repeat constructor. eexists; reflexivity.
  - rewrite app_length, L. cbn. lia.
  - rewrite app_length. cbn. lia.
Qed.
Lemma modify_nth_ok (l : list pyv) i f v v' : nth_error l i = Some v -> f v = Ok v' -> exists l', modify_nth l i f = Ok l'.
Proof.
  revert i. induction l as [|w l IH]; intros [|i] E F; try discriminate; cbn [modify_nth].
  - injection E as ->. rewrite F. cbn. eauto.
  - destruct (IH i E F) as [l' ->]. cbn. eauto.
Qed.
(** Axis [i + 1] is a list of numbers. *)
Definition listed (d : na) (i : nat) : Prop :=
  exists nxdef nx dv l, index (attr d kNXDEF) i = Ok (PInt nxdef) /\ index (attr d kNX) i = Ok (PInt nx) /\
    index (attr d kDX) (S i) = Ok (PNum dv) /\ (exists xs, attr d kX = PList xs) /\ index (attr d kX) (S i) = Ok (PList l) /\ l <> [] /\ Forall is_num l.
Lemma normalize_axis_ok (d : na) i : listed d i -> exists d', normalize_axis i d = Ok d' /\ listed d' i.
Proof.
  intros (nxdef & nx & dv & l & A & B & C & (xs & X) & D & Ne & F). unfold normalize_axis. rewrite A, B. cbn [bindR int_eq].
  destruct (Z.eqb_spec nxdef nx) as [Q|Q]; cbn [bindR].
  { exists d. split; [reflexivity|]. exists nxdef, nx, dv, l. eauto 10. }
  cbn [as_int bindR]. rewrite C, X. cbn [modify_in]. rewrite X in D. unfold index in D. cbn [as_list bindR] in D. unfold nth_res in D.
  destruct (nth_error xs (S i)) as [w|] eqn:E; cbn [of_opt] in D; [|discriminate]. assert (w = PList l) as -> by congruence.
  destruct l as [|l0 l]; [congruence|].
  destruct (extend_ok nx dv (Z.to_nat nx) [l0] 0) as (x' & E1 & F1); [inversion F; auto|reflexivity|cbn; lia|].
  match goal with |- context [modify_nth xs (S i) ?f] => destruct (modify_nth_ok xs (S i) f _ (PList x') E) as [xs' Exs]; [cbn [firstn]; rewrite E1; reflexivity|] end.
  rewrite Exs. cbn [bindR]. eexists. split; [reflexivity|].
  destruct (modify_nth_spec _ _ _ _ Exs) as (_ & (v & v' & V1 & V2 & V3) & _). rewrite E in V1. injection V1 as <-.
  cbn [firstn] in V3. rewrite E1 in V3. injection V3 as <-.
  exists nxdef, nx, dv, x'. rewrite !attr_upd_other by discriminate. rewrite attr_upd. split; [exact A|]. split; [exact B|]. split; [exact C|].
  split; [eauto|]. split; [unfold index; cbn [as_list bindR]; unfold nth_res; now rewrite V2|].
  split; [|exact F1]. apply extend_hd in E1. intros ->. discriminate.
Qed.
Lemma listed_frame (d d' : na) i : listed d i -> (forall k, k <> kX -> d' k = d k) -> (exists xs, attr d' kX = PList xs) ->
  index (attr d' kX) (S i) = index (attr d kX) (S i) -> listed d' i.
Proof.
  intros (a & b & c & l & A & B & C & D & E & F & G) K X I. exists a, b, c, l.
  assert (K' : forall k, k <> kX -> attr d' k = attr d k) by (intros k Hk; unfold attr; now rewrite K).
  rewrite !K', I by discriminate. auto 10.
Qed.
Lemma normalize_loop_ok n : forall a (d : na), (forall i, (i < a + n)%nat -> listed d i) -> exists d',
  forR (seq a n) normalize_axis d = Ok d' /\ forall i, (i < a + n)%nat -> listed d' i.
Proof.
  induction n as [|n IH]; intros a d L; cbn [seq forR].
  - exists d. auto.
  - destruct (normalize_axis_ok d a) as (d1 & E1 & L1); [apply L; lia|]. rewrite E1. cbn [bindR].
    destruct (IH (S a) d1) as (d' & E' & L').
    + intros i Hi. destruct (Nat.eq_dec i a) as [-> | N]; [exact L1|].
      destruct (normalize_axis_spec _ _ _ E1) as (_ & B & C). apply (listed_frame d); [apply L; lia|exact B| |apply C; lia].
      destruct L1 as (? & ? & ? & ? & _ & _ & _ & X & _). exact X.
    + exists d'. split; [exact E'|]. intros i Hi. apply L'. lia.
Qed.
End Bounded.
