(** C130: comments of a NASA Ames file after conversion to xarray and back. *)
From Coq Require Import List NArith ZArith Bool Lia.
From Verif Require Import Py.Str Py.Res Py.Num Py.Arith Model.Dict Model.NARead Model.NCWrite Model.Xarray Model.Collector Model.ToXarray Spec.CollectorSpec
  Spec.TextSpec Spec.Binary64 Spec.HeaderSpec Spec.ToXarraySpec Spec.ValuesSpec Spec.CompareTreeSpec Proofs.StrLemmas Proofs.BlankLemmas Proofs.ReadFrame Proofs.CollectorLemmas
  Proofs.ConfigLemmas Proofs.CollectorFrame Props.CollectorProps Props.CommentProps Props.ToXarrayProps Props.ToXarrayMore Props.AxisProps Props.ValuesProps Props.CompareTree Props.HeaderProps.
Import ListNotations.

(** ** Statement *)
(** The lines that separate the parts of the attribute comment. *)
Definition marks : list str :=
  map lit ["==== Special Comments follow ===="; "==== Special Comments end ===="; "==== Normal Comments follow ===="; "==== Normal Comments end ===="]%pylit.
(** One line, not blank, with none of the separators in it. *)
Definition plain_comment (l : str) : Prop := one_line l /\ ~ blank l /\ forall m, In m marks -> ~ occurs m l.
(** Without the lines that the converter itself makes. *)
Definition own (known l : list str) : list str := filter (fun x => negb (mem_str (strip x) known)) l.
Definition comments_ok (known l : list str) : Prop := forall x, In x l -> plain_comment x \/ In (strip x) known.
(** Lines that start with two blanks. *)
Definition indented (l : str) : Prop := exists t, l = lit "  " ++ t.

(** ** Text of the attribute *)
Definition nn2 : str := nl ++ nl.
Lemma rep_line w rest : one_line w -> replace_str nn2 nl (w ++ rest) = w ++ replace_str nn2 nl rest.
Proof.
  unfold replace_str. induction w as [| c w IH]; intros O; [reflexivity |]. cbn [app replace_aux].
  change nn2 with [c_nl; c_nl] at 1. cbn [starts_with]. destruct (N.eqb_spec c_nl c) as [Q | Q]; [exfalso; apply O; left; congruence |].
  cbn [andb]. rewrite IH; [reflexivity |]. intros I. apply O. right. exact I.
Qed.
Lemma rep_two rest : replace_str nn2 nl (nl ++ nl ++ rest) = nl ++ replace_str nn2 nl rest.
Proof. reflexivity. Qed.
Lemma rep_one c rest : c <> c_nl -> replace_str nn2 nl (nl ++ c :: rest) = nl ++ replace_str nn2 nl (c :: rest).
Proof.
  intros D. unfold replace_str. change (nl ++ c :: rest) with (c_nl :: c :: rest). cbn [replace_aux].
  change nn2 with [c_nl; c_nl] at 1. cbn [starts_with]. rewrite N.eqb_refl. destruct (N.eqb_spec c_nl c) as [Q | Q]; [congruence |]. reflexivity.
Qed.
Definition solid_line (w : str) : Prop := one_line w /\ w <> [].
Lemma rep_next w rest : solid_line w -> replace_str nn2 nl (nl ++ w ++ rest) = nl ++ w ++ replace_str nn2 nl rest.
Proof.
  intros (O & N). rewrite <- (rep_line w rest O). destruct w as [| c w]; [contradiction |]. cbn [app]. apply rep_one. intros Q. apply O. left. exact Q.
Qed.
Lemma rep_lines ls rest : Forall solid_line ls ->
  replace_str nn2 nl (flat_map (fun i => nl ++ i) ls ++ rest) = flat_map (fun i => nl ++ i) ls ++ replace_str nn2 nl rest.
Proof.
  induction 1 as [| w ls Hw _ IH]; [reflexivity |]. cbn [flat_map]. rewrite <- !app_assoc. rewrite (rep_next _ _ Hw), IH. reflexivity.
Qed.
(** a first line with an empty line after it *)
Lemma rep_block a ls b rest : one_line a -> Forall solid_line ls -> solid_line b ->
  replace_str nn2 nl (a ++ nl ++ flat_map (fun i => nl ++ i) ls ++ nl ++ b ++ rest) =
  a ++ flat_map (fun i => nl ++ i) (ls ++ [b]) ++ replace_str nn2 nl rest.
Proof.
  intros Oa F Hb. rewrite (rep_line _ _ Oa). f_equal. rewrite flat_map_app. cbn [flat_map]. rewrite app_nil_r.
  destruct F as [| w ls Hw F]; cbn [flat_map app].
  - rewrite rep_two. rewrite (rep_line _ _ (proj1 Hb)). rewrite <- app_assoc. reflexivity.
  - rewrite <- !app_assoc. rewrite rep_two. rewrite (rep_line _ _ (proj1 Hw)). rewrite (rep_lines _ _ F). rewrite (rep_next _ _ Hb). reflexivity.
Qed.
Lemma rep_last a ls b : one_line a -> Forall solid_line ls -> solid_line b ->
  replace_str nn2 nl (a ++ nl ++ flat_map (fun i => nl ++ i) ls ++ nl ++ b) = a ++ flat_map (fun i => nl ++ i) (ls ++ [b]).
Proof.
  intros Oa F Hb. assert (K := rep_block a ls b [] Oa F Hb). rewrite !app_nil_r in K. rewrite K. reflexivity.
Qed.
Lemma join_flat a ls : join nl (a :: ls) = a ++ flat_map (fun i => nl ++ i) ls.
Proof.
  revert a. induction ls as [| b ls IH]; intros a; [cbn; symmetry; apply app_nil_r |].
  change (join nl (a :: b :: ls)) with (a ++ nl ++ join nl (b :: ls)). rewrite IH. cbn [flat_map]. rewrite <- app_assoc. reflexivity.
Qed.
Section Text.
Context {num : Type} {Num : NumOps num} {Ar : ArithOps num}.
Lemma kept known l : kept_lines (num := num) known (PList (map PStr l)) = Ok (flat_map (fun i => nl ++ i) (own known l)).
Proof.
  unfold kept_lines. cbn [as_list bindR]. assert (M : mapR (@Model.NACore.as_str num) (map PStr l) = Ok l).
  { induction l as [| x t IH]; [reflexivity |]. cbn [map mapR Model.NACore.as_str bindR]. rewrite IH. reflexivity. }
  rewrite M. cbn [bindR]. f_equal. induction l as [| x t IH]; [reflexivity |]. cbn [flat_map own filter].
  cbn [map] in M. destruct (mem_str (strip x) known); cbn [negb app]; [| cbn [flat_map]; f_equal]; apply IH; (clear; induction t as [| y t IH]; [reflexivity |]; cbn [map mapR Model.NACore.as_str bindR]; rewrite IH; reflexivity).
Qed.
Lemma own_plain known l : comments_ok known l -> Forall plain_comment (own known l).
Proof.
  intros F. apply Forall_forall. intros x Ix. unfold own in Ix. apply filter_In in Ix as [Ix Q]. destruct (F x Ix) as [P | P]; [exact P |].
  apply mem_str_in in P. rewrite P in Q. discriminate Q.
Qed.
Lemma plain_solid x : plain_comment x -> solid_line x.
Proof. intros (O & B & _). split; [exact O |]. intros ->. apply B. constructor. Qed.
Definition lines_of (ss nn os on : list str) : list str :=
  match ss, nn with
  | [], [] => [[]]
  | [], _ => hp_nc_start :: on ++ [hp_nc_end]
  | _, [] => hp_sc_start :: os ++ [hp_sc_end; []]
  | _, _ => hp_sc_start :: os ++ hp_sc_end :: hp_nc_start :: on ++ [hp_nc_end]
  end.
Ltac solids := split; [intros Q; vm_compute in Q; intuition discriminate | discriminate].
Lemma comment_text (d : na num) ss nn os on :
  attr d kNSCOML = PInt (Z.of_nat (length ss)) -> attr d kSCOM = PList (map PStr ss) ->
  attr d kNNCOML = PInt (Z.of_nat (length nn)) -> attr d kNCOM = PList (map PStr nn) ->
  os = own special_known ss -> on = own normal_known nn -> Forall plain_comment os -> Forall plain_comment on ->
  comment_line d = Ok (join nl (lines_of ss nn os on)).
Proof.
  intros A1 A2 A3 A4 Eo En Fo Fn. unfold comment_line. rewrite A1, A2, A3, A4, !kept, <- Eo, <- En. cbn [as_int bindR].
  assert (So : Forall solid_line os) by (refine (Forall_impl _ plain_solid Fo)). assert (Sn : Forall solid_line on) by (refine (Forall_impl _ plain_solid Fn)).
  assert (K1 : solid_line hp_sc_start) by solids. assert (K2 : solid_line hp_sc_end) by solids.
  assert (K3 : solid_line hp_nc_start) by solids. assert (K4 : solid_line hp_nc_end) by solids.
  assert (Z0 : forall A (l : list A), (0 <? Z.of_nat (length l))%Z = match l with [] => false | _ => true end) by (intros A [| x l]; reflexivity).
  rewrite !Z0. change (nl ++ nl) with nn2. unfold lines_of.
  destruct ss as [| s ss]; destruct nn as [| n nn]; cbn [bindR]; f_equal.
  - rewrite app_nil_l. rewrite (rep_last _ _ _ (proj1 K3) Sn K4), join_flat. reflexivity.
  - rewrite app_nil_r. rewrite (rep_block _ _ _ _ (proj1 K1) So K2), join_flat. rewrite !flat_map_app. cbn [flat_map]. rewrite !app_nil_r, <- !app_assoc. reflexivity.
  - rewrite <- !app_assoc. rewrite (rep_block _ _ _ _ (proj1 K1) So K2), join_flat, (rep_next _ _ K3), <- (rep_line _ _ (proj1 K3)), (rep_last _ _ _ (proj1 K3) Sn K4). f_equal.
    rewrite !flat_map_app. cbn [flat_map]. rewrite <- !app_assoc. cbn [app flat_map]. rewrite !flat_map_app. reflexivity.
Qed.
End Text.

(** ** Sorting *)
Lemma plain_contains l m : plain_comment l -> In m marks -> contains m l = false.
Proof. intros (_ & _ & P) I. destruct (contains m l) eqn:C; [| reflexivity]. apply contains_true in C. exfalso. exact (P m I C). Qed.
Lemma sort_special ls t nm : Forall plain_comment ls ->
  sort_comments (ls ++ t) true nm = let (s, n) := sort_comments t true nm in (ls ++ s, n).
Proof.
  induction 1 as [| l ls Pl _ IH]; [cbn [app]; destruct (sort_comments t true nm); reflexivity |]. cbn [app sort_comments].
  rewrite (plain_contains l hp_sc_start), (plain_contains l hp_sc_end), (plain_contains l hp_nc_start), (plain_contains l hp_nc_end), IH by (assumption || (vm_compute; tauto)).
  destruct (sort_comments t true nm). reflexivity.
Qed.
Lemma sort_normal ls t : Forall plain_comment ls ->
  sort_comments (ls ++ t) false true = let (s, n) := sort_comments t false true in (s, ls ++ n).
Proof.
  induction 1 as [| l ls Pl _ IH]; [cbn [app]; destruct (sort_comments t false true); reflexivity |]. cbn [app sort_comments].
  rewrite (plain_contains l hp_sc_start), (plain_contains l hp_sc_end), (plain_contains l hp_nc_start), (plain_contains l hp_nc_end), IH by (assumption || (vm_compute; tauto)).
  destruct (sort_comments t false true). reflexivity.
Qed.
Lemma sort_mark_1 t sp nm : sort_comments (hp_sc_start :: t) sp nm = sort_comments t true nm.
Proof. reflexivity. Qed.
Lemma sort_mark_2 t sp nm : sort_comments (hp_sc_end :: t) sp nm = sort_comments t false nm.
Proof. reflexivity. Qed.
Lemma sort_mark_3 t sp nm : sort_comments (hp_nc_start :: t) sp nm = sort_comments t sp true.
Proof. reflexivity. Qed.
Lemma sort_mark_4 t sp nm : sort_comments (hp_nc_end :: t) sp nm = sort_comments t sp false.
Proof. reflexivity. Qed.
Lemma sorted ss nn os on : (ss = [] -> os = []) -> (nn = [] -> on = []) -> Forall plain_comment os -> Forall plain_comment on ->
  sort_comments (lines_of ss nn os on) false false = (os, match nn with [] => [[]] | _ => on end).
Proof.
  intros Zs Zn Fo Fn. unfold lines_of. destruct ss as [| s ss]; destruct nn as [| n nn].
  - rewrite (Zs eq_refl). reflexivity.
  - rewrite sort_mark_3, sort_normal, sort_mark_4, (Zs eq_refl) by assumption. cbn [sort_comments]. rewrite app_nil_r. reflexivity.
  - rewrite sort_mark_1, sort_special, sort_mark_2 by assumption. change (sort_comments [[]] false false) with (@nil str, [@nil chr]). cbn iota. rewrite app_nil_r. reflexivity.
  - rewrite sort_mark_1, sort_special, sort_mark_2, sort_mark_3, sort_normal, sort_mark_4 by assumption. cbn [sort_comments]. rewrite !app_nil_r. reflexivity.
Qed.
Lemma lines_ok ss nn os on : Forall plain_comment os -> Forall plain_comment on -> Forall (fun l => mem_chr c_nl l = false) (lines_of ss nn os on).
Proof.
  intros Fo Fn. assert (K : forall l, Forall plain_comment l -> Forall (fun l => mem_chr c_nl l = false) l).
  { intros l. apply Forall_impl. intros a (O & _). unfold one_line in O. destruct (mem_chr c_nl a) eqn:M; [| reflexivity]. exfalso. apply O. unfold mem_chr in M.
    apply existsb_exists in M as (x & I & Q). apply N.eqb_eq in Q. subst x. exact I. }
  apply K in Fo, Fn. unfold lines_of. destruct ss, nn; repeat first [apply Forall_app; split | assumption | apply Forall_cons; [reflexivity |] | apply Forall_nil].
Qed.

(** ** Cleaning *)
Lemma clean_one l : one_line l -> ~ blank l -> clean_entry l = [l].
Proof.
  intros O B. unfold clean_entry. destruct (is_nil (strip l)) eqn:S0; [exfalso; apply B, strip_blank, S0 |].
  rewrite (split_one_line _ O). cbn [hd map]. rewrite Proofs.ConfigLemmas.str_eqb_same. reflexivity.
Qed.
Lemma clean_plain ls : Forall plain_comment ls -> clean ls = ls.
Proof. unfold clean. induction 1 as [| l ls (O & B & _) _ IH]; [reflexivity |]. cbn [flat_map]. rewrite (clean_one _ O B), IH. reflexivity. Qed.
Lemma clean_app a b : clean (a ++ b) = clean a ++ clean b.
Proof. apply flat_map_app. Qed.
Lemma clean_indented m : Forall indented m -> Forall indented (clean m).
Proof.
  intros F. unfold clean. apply Forall_flat_map. refine (Forall_impl _ _ F). intros l (t & ->). unfold clean_entry.
  destruct (is_nil (strip _)); [constructor |]. apply Forall_map, Forall_forall. intros x _. destruct (str_eqb x _) eqn:Q; [| exists x; reflexivity].
  apply str_eqb_eq in Q. subst x. unfold split_chr. change (lit "  " ++ t) with (c_sp :: c_sp :: t). cbn [split_chr_aux].
  destruct (split_chr_aux c_nl t) as [w ws]. change (c_sp =? c_nl)%N with false. cbn iota. cbn [hd]. exists w. reflexivity.
Qed.
Lemma clean_more m : Forall (fun l => indented l \/ l = hp_ncatts_end) m -> Forall (fun l => indented l \/ l = hp_ncatts_end) (clean m).
Proof.
  induction 1 as [| l m Hl _ IH]; [constructor |]. change (l :: m) with ([l] ++ m). rewrite clean_app. apply Forall_app. split; [| exact IH].
  destruct Hl as [Hl | ->]; [| constructor; [right; reflexivity | constructor]]. refine (Forall_impl _ _ (clean_indented [l] _)); [auto | constructor; [exact Hl | constructor]].
Qed.
Definition hist_line (l : str) : Prop := one_line l /\ ((exists t, l = lit "History:" ++ t) \/ indented l).
Lemma clean_hist m : Forall hist_line m -> Forall hist_line (clean m).
Proof.
  intros F. unfold clean. apply Forall_flat_map. refine (Forall_impl _ _ F). intros l Hl.
  destruct (is_nil (strip l)) eqn:B; [unfold clean_entry; rewrite B; constructor |]. rewrite clean_one; [constructor; [exact Hl | constructor] | apply Hl |].
  apply strip_nonblank, B.
Qed.

(** ** The other attributes *)
Section Globals.
Context {num : Type} {Num : NumOps num} {Ar : ArithOps num}.
Variable E : env num.
Lemma history_hist t : Forall hist_line (history_lines E t).
Proof.
  unfold history_lines. cbv zeta. apply Forall_map. refine (Forall_impl _ _ (split_lines_one _)). intros h O.
  destruct (str_eqb (firstn 8 h) (lit "History:")) eqn:Q.
  - apply str_eqb_eq in Q. split; [exact O |]. left. exists (skipn 8 h). rewrite <- Q. symmetry. apply firstn_skipn.
  - split; [| right; exists h; reflexivity]. intros I. apply in_app_iff in I as [[I | [I | []]] | I]; [discriminate I | discriminate I | exact (O I)].
Qed.
Definition before (s : gst (num := num)) : Prop := gs_special s = [] /\ gs_normal s = [] /\ gs_other s = [] /\ Forall hist_line (gs_history s).
Lemma item_before (k : str) v s s' : In k (map fst plain_map ++ map lit ["first_valid_date_of_data"; "institution"; "history"]%pylit) ->
  global_item E (k, v) s = Ok s' -> before s -> before s'.
Proof.
  intros Ik R (B1 & B2 & B3 & B4). unfold global_item in R. cbv zeta in R. unfold before.
  destruct (str_eqb k (lit "first_valid_date_of_data")) eqn:Qd; [destruct (numpy_scalar v); [discriminate R |]; injection R as <-; auto |].
  destruct (negb _); [injection R as <-; auto |].
  destruct (str_eqb k (lit "history")) eqn:Qh; [bindE R t Ht; injection R as <-; cbn; repeat (split; [assumption |]); apply history_hist |].
  destruct (str_eqb k (lit "institution")) eqn:Qi.
  { destruct (g_val v); try discriminate R. destruct (match institution_match s0 with Some p => p | None => (s0, s0) end) as [o r]. injection R as <-. auto. }
  destruct (str_eqb k (lit "comment")) eqn:Qc.
  { apply str_eqb_eq in Qc. subst k. exfalso. vm_compute in Ik. intuition discriminate. }
  destruct (lookup k plain_map) eqn:L; [injection R as <-; auto |]. exfalso.
  cbn [plain_map map fst app In] in Ik. repeat (destruct Ik as [<- | Ik]; [discriminate L || discriminate Qh || discriminate Qi || discriminate Qd |]). contradiction.
Qed.
Lemma item_comment t s s' os on : global_item E (lit "comment", gstr t) s = Ok s' -> before s ->
  sort_comments (split_chr c_nl t) false false = (os, on) ->
  gs_special s' = os /\ gs_normal s' = on /\ gs_other s' = [] /\ Forall hist_line (gs_history s').
Proof.
  intros R (B1 & B2 & B3 & B4) S0. change (global_item E (lit "comment", gstr t) s) with
    (let (sp, nm) := sort_comments (split_chr c_nl t) false false in Ok (mkGst (gs_na s) (gs_special s ++ sp) (gs_normal s ++ nm) (gs_other s) (gs_history s))) in R.
  rewrite S0, B1, B2 in R. injection R as <-. auto.
Qed.

(** ** Comments of the variables *)
Definition with_head (h : list str) (s : sst) : Prop := ss_spec s = true /\ exists m, ss_scom s = h ++ m /\ Forall indented m.
Lemma att_indented att (v : pyv num) l : att_line att v = Ok l -> indented l.
Proof. unfold att_line. intros R. bindE R t Ht. injection R as <-. eexists (lit "  " ++ att ++ lit " = " ++ t). reflexivity. Qed.
Lemma head_var h zl v name : forall atts written s s', var_comments (num := num) zl v name atts written s = Ok s' -> with_head h s -> with_head h s'.
Proof.
  induction atts as [| (att, g) t IH]; intros written s s' R W; cbn [var_comments] in R; [injection R as <-; exact W |].
  destruct (shown att (g_val g)) as [value |]; [| exact (IH _ _ _ R W)]. destruct W as (W1 & m & W2 & W3). rewrite W1 in R. cbv zeta in R. bindE R l Hl.
  apply (IH _ _ _ R). split; [reflexivity |]. cbn [ss_scom]. apply att_indented in Hl. rewrite W2.
  destruct written; [exists (m ++ [l]) | exists (m ++ [var_line v name; l])]; (split; [rewrite <- !app_assoc; reflexivity |]); apply Forall_app; (split; [exact W3 |]);
    repeat constructor; try exact Hl. eexists. reflexivity.
Qed.
Lemma scom_head (g : gst (num := num)) zero main sc : scom_of g zero main = Ok sc -> gs_special g <> [] ->
  exists m, sc = (hp_sc_start :: gs_special g) ++ m ++ [hp_sc_end] /\ Forall (fun l => indented l \/ l = hp_ncatts_end) m.
Proof.
  unfold scom_of. intros R N. bindE R zl Hz. cbv zeta in R. bindE R s Hs. injection R as <-.
  assert (W : with_head (hp_sc_start :: gs_special g) s).
  { refine (forR_inv (with_head (hp_sc_start :: gs_special g)) _ _ _ _ _ Hs _).
    - intros v s1 s2 _ R W. bindE R name Hn. exact (head_var _ _ _ _ _ _ _ _ R W).
    - destruct (gs_special g) as [| x sp]; [contradiction |]. split; [reflexivity |]. exists []. rewrite app_nil_r. split; [reflexivity | constructor]. }
  destruct W as (W1 & m & W2 & W3). rewrite W1, W2. exists (m ++ (if ss_var s then [hp_ncatts_end] else [])). split; [rewrite <- !app_assoc; reflexivity |].
  apply Forall_app. split; [refine (Forall_impl _ _ W3); auto |]. destruct (ss_var s); [constructor; [right; reflexivity | constructor] | constructor].
Qed.
End Globals.

(** ** C130 *)
(** The lines that the converter takes for its own. *)
Definition own_special : list str :=
  map lit ["==== Special Comments follow ===="; "==== Special Comments end ===="; "=== Additional Variable Attributes defined in the source file ===";
           "=== Additional Global Attributes defined in the source file ==="]%pylit.
Definition own_normal : list str :=
  map lit ["==== Normal Comments follow ===="; "==== Normal Comments end ===="; "=== Data Section begins on the next line ===";
           "=== Additional Variable Attributes defined in the source file ==="; "=== Additional Global Attributes defined in the source file ==="]%pylit.
Lemma strip_not_nl x : strip x <> nl.
Proof.
  intros Q. assert (K : is_nil (strip (strip x)) = false).
  { destruct (is_nil (strip x)) eqn:B; [| rewrite strip_idem; exact B]. rewrite Q in B. discriminate B. }
  rewrite Q in K. discriminate K.
Qed.
Lemma own_known l : own special_known l = own own_special l /\ own normal_known l = own own_normal l.
Proof.
  assert (K : forall x ks, mem_str (strip x) (ks ++ [nl]) = mem_str (strip x) ks).
  { intros x ks. unfold mem_str. rewrite existsb_app. cbn [existsb]. rewrite orb_false_r. destruct (str_eqb (strip x) nl) eqn:Q; [| apply orb_false_r].
    apply str_eqb_eq in Q. exfalso. exact (strip_not_nl x Q). }
  change special_known with (own_special ++ [nl]). change normal_known with (own_normal ++ [nl]).
  split; unfold own; apply filter_ext; intros x; rewrite K; reflexivity.
Qed.
(** From a NASA Ames dictionary to variables and back (with any variables and
    settings in between, but no attributes of the caller): the special comments
    are there again, in the same order, right after the line that starts them,
    and the normal comments right after the line on global attributes.  After
    them there are only lines that are indented or start with History:, and the
    lines that the converter adds. *)
Theorem C130_partial : forall num (Num : NumOps num) (Ar : ArithOps num) (s : settings (num := num)) (d : na num) ob (E : env num) req vars cs c ss nn,
  toXarray s d = Ok ob -> t_globals s = [] ->
  attr d kSCOM = PList (map PStr ss) -> attr d kNSCOML = PInt (Z.of_nat (length ss)) -> comments_ok own_special ss ->
  attr d kNCOM = PList (map PStr nn) -> attr d kNNCOML = PInt (Z.of_nat (length nn)) -> comments_ok own_normal nn ->
  convert E req (file_attributes ob) vars = Ok (Some cs) -> In c cs ->
  exists d', c_na c = Some d' /\
    (own own_special ss <> [] -> exists more,
       d' kSCOM = Some (PList (map PStr (lit "==== Special Comments follow ====" :: own own_special ss ++ more ++ [lit "==== Special Comments end ===="]))) /\
       forall l, In l more -> indented l \/ l = lit "== Variable attributes from source (NetCDF) file end ==") /\
    (own own_normal nn <> [] -> exists hist,
       d' kNCOM = Some (PList (map PStr (lit "==== Normal Comments follow ====" :: lit "=== Additional Global Attributes defined in the source file ===" ::
         own own_normal nn ++ hist ++ [lit "==== Normal Comments end ===="; lit "=== Data Section begins on the next line ==="]))) /\
       forall l, In l hist -> (exists t, l = lit "History:" ++ t) \/ indented l).
Proof.
  intros num Num Ar s d ob E req vars cs c ss nn X G0 A1 A2 P1 A3 A4 P2 R I.
  destruct (toXarray_inv _ _ _ X) as (ffi & ren & axes & is & js & _ & _ & Hg & _). rewrite G0 in Hg.
  unfold mapNACommentsToGlobalAttributes in Hg. bindE Hg g Gg. cbn [mapR bindR] in Hg. apply Ok_inj in Hg.
  apply own_plain in P1, P2. rewrite <- (proj1 (own_known ss)) in *. rewrite <- (proj2 (own_known nn)) in *.
  set (os := own special_known ss) in *. set (on := own normal_known nn) in *.
  unfold glob_atts in Gg. cbv zeta in Gg. bindE Gg iv Hi. bindE Gg hv Hh. bindE Gg com Hc. apply Ok_inj in Gg.
  rewrite (comment_text d ss nn os on A2 A1 A4 A3 eq_refl eq_refl P1 P2) in Hc. apply Ok_inj in Hc.
  match type of Gg with fold_left _ ?l _ = _ => set (ten := l) in Gg end. change (dict_of_list ten = g) in Gg.
  assert (Nt : NoDup (map fst ten)). { unfold ten. cbn [map fst]. repeat (constructor; [cbn [In]; intuition discriminate |]). constructor. }
  rewrite (dict_of_nodup _ Nt) in Gg. subst g.
  assert (Ef : file_attributes ob = ten). { unfold file_attributes. rewrite <- Hg. cbn [app map mem_str]. rewrite filter_all. apply dict_of_nodup, Nt. }
  rewrite Ef in R. clear X Hg Ef.
  destruct (convert_each E _ _ _ _ _ R I) as (vs & C & Nc & _). destruct (c_na c) as [d' |] eqn:Nd; [| congruence].
  destruct (collect_steps E _ _ _ _ _ C Nd) as (a & d1 & d2 & g & d3 & v0 & ax0 & Ha & H1 & H2 & Hg & H3 & _ & _ & -> & _ & _).
  assert (Gs : gs_special g = os /\ gs_normal g = match nn with [] => [[]] | _ => on end /\ gs_other g = [] /\ Forall hist_line (gs_history g)).
  { unfold defineNAGlobals in Hg. change ten with (firstn 9 ten ++ [(lit "comment", gstr com)]) in Hg. rewrite forR_app in Hg. bindE Hg s1 Hs1.
    cbn [forR] in Hg. bindE Hg s2 Hs2. apply Ok_inj in Hg. subst s2. refine (item_comment E _ _ _ _ _ Hs2 _ _).
    - refine (forR_inv before _ _ _ _ _ Hs1 _); [| repeat split; constructor]. intros (k, v) sa sb Ik Q B. refine (item_before E k v sa sb _ Q B).
      assert (J : In k (map fst (firstn 9 ten))) by (apply (in_map fst) in Ik; exact Ik). cbn in J |- *. tauto.
    - rewrite <- Hc. rewrite split_chr_join; [| destruct ss, nn; discriminate | apply lines_ok; assumption].
      apply sorted; try assumption; intros Z0; [subst os | subst on]; rewrite Z0; reflexivity. }
  destruct Gs as (G1 & G2 & G3 & G4). unfold defineNAComments in H3. cbv zeta in H3. bindE H3 sc Hsc. injection H3 as <-.
  eexists. split; [reflexivity |]. rewrite !(same_header E ax0 _) by (cbn; intuition discriminate). split.
  - intros No. rewrite <- G1 in No. destruct (scom_head _ _ _ _ Hsc No) as (m & -> & Fm). exists (clean m). split.
    + rewrite G1. change ((hp_sc_start :: os) ++ m ++ [hp_sc_end]) with ([hp_sc_start] ++ os ++ m ++ [hp_sc_end]). rewrite !clean_app, (clean_plain _ P1). reflexivity.
    + intros l Il. exact (proj1 (Forall_forall _ _) (clean_more _ Fm) l Il).
  - intros No. assert (G2' : gs_normal g = on) by (rewrite G2; destruct nn; [exfalso; apply No; reflexivity | reflexivity]). clear G2.
    exists (clean (gs_history g)). split.
    + assert (En : ncom_of g = [hp_nc_start; hp_addl_globals] ++ on ++ gs_history g ++ [[]; hp_nc_end; hp_data_next]).
      { unfold ncom_of. rewrite G3, G2'. destruct on as [| x on']; [contradiction |]. cbn [app]. rewrite <- app_assoc. reflexivity. }
      rewrite En, !clean_app, (clean_plain _ P2). reflexivity.
    + intros l Il. exact (proj2 (proj1 (Forall_forall _ _) (clean_hist _ G4) l Il)).
Qed.
Print Assumptions C130_partial.

(** A file with comments, there and back. *)
Definition with_comments (sc nc : list str) : str :=
  unlines ((dec_of_nat (15 + length sc + length nc) ++ lit " 1001") ::
    map lit ["A, B"; "Org"; "Src"; "Mission"; "1 1"; "1999 1 1 2000 2 2"; "0"; "height (m)"; "1"; "1"; "-9999"; "temp (K)"]%pylit ++
    dec_of_nat (length sc) :: sc ++ dec_of_nat (length nc) :: nc ++ map lit ["0 280"; "10 281"]%pylit).
Definition sc_ex : list str := map lit ["==== Special Comments follow ===="; "Sonde lost at 30 km"; "  see log"; "==== Special Comments end ===="]%pylit.
Definition nc_ex : list str := map lit ["Contact: A. B."; "=== Data Section begins on the next line ==="]%pylit.
Definition texts (v : pyv b64) : list str := match v with PList l => flat_map (fun x => match x with PStr s => [s] | _ => [] end) l | _ => [] end.
Definition trip (sc nc : list str) : list (list (list str)) := map (map texts) (there_and_back (with_comments sc nc) [kSCOM; kNCOM]).
Example C130_example : trip sc_ex nc_ex =
  [[map lit ["==== Special Comments follow ===="; "Sonde lost at 30 km"; "see log"; "  Variable temp: temp (K)"; "    units = K"; "    long_name = temp";
             "    title = temp"; "== Variable attributes from source (NetCDF) file end =="; "==== Special Comments end ===="]%pylit;
    map lit ["==== Normal Comments follow ===="; "=== Additional Global Attributes defined in the source file ==="; "Contact: A. B.";
             "History:  2024-01-01 00:00:00 - Converted to NASA Ames format using nappy-0.3."; "    2000-02-02 - NASA Ames File created/revised.";
             "  2024-01-01 00:00:00 - Converted to Xarray (NetCDF) format using nappy-2.0."; "==== Normal Comments end ====";
             "=== Data Section begins on the next line ==="]%pylit]].
Proof. vm_compute. reflexivity. Qed.
(** The comments of the example meet the conditions. *)
Example C130_conditions : comments_ok own_special (map strip sc_ex) /\ comments_ok own_normal nc_ex /\
  own own_special (map strip sc_ex) = map lit ["Sonde lost at 30 km"; "see log"]%pylit /\ own own_normal nc_ex = [lit "Contact: A. B."].
Proof.
  assert (P : forall x, forallb (fun c => negb (c =? c_nl)%N) x = true -> is_nil (strip x) = false -> forallb (fun m => negb (contains m x)) marks = true -> plain_comment x).
  { intros x A B C. split; [| split].
    - intros I. apply (proj1 (forallb_forall _ _) A) in I. discriminate I.
    - apply strip_nonblank, B.
    - intros m Im O. assert (K := proj1 (forallb_forall _ _) C m Im). cbn beta in K. apply contains_true in O. rewrite O in K. discriminate K. }
  split; [| split; [| split; reflexivity]]; intros x Ix; cbn [In map sc_ex nc_ex] in Ix.
  - destruct Ix as [<- | [<- | [<- | [<- | []]]]]; [right; vm_compute; tauto | left; apply P; reflexivity | left; apply P; reflexivity | right; vm_compute; tauto].
  - destruct Ix as [<- | [<- | []]]; [left; apply P; reflexivity | right; vm_compute; tauto].
Qed.
(** False of the code without the conditions: a special comment that mentions the
    line that ends them is lost, and the special comments after it become normal
    comments; blank comments are lost. *)
Theorem C130_refuted : exists sc nc scom ncom,
  trip sc nc = [[scom; ncom]] /\ (exists l, In l sc /\ strip l <> [] /\ ~ In l own_special /\ ~ In l scom /\ ~ In l ncom) /\
  (exists l, In l sc /\ ~ In l scom /\ In l ncom) /\ (In [] nc /\ ~ In [] ncom).
Proof.
  exists (map lit ["one"; "see ==== Special Comments end ==== below"; "two"]%pylit), (map lit ["x"; ""; "y"]%pylit). eexists _, _.
  split; [vm_compute; reflexivity |].
  split; [exists (lit "see ==== Special Comments end ==== below"); vm_compute; intuition discriminate |].
  split; [exists (lit "two"); vm_compute; intuition discriminate | vm_compute; intuition discriminate].
Qed.
Print Assumptions C130_refuted.
(** A second time there and back repeats the lines on attributes and history that
    the first one added. *)
Definition back_again (content : str) : list (list nat) :=
  let step (d : na b64) :=
    match toXarray plain_settings d with
    | Ok ob => match convert env_b None (file_attributes ob) (o_vars ob) with Ok (Some [c]) => c_na c | _ => None end
    | Err _ => None
    end in
  match NARead.read_file (num := b64) content 0 with
  | Ok (_, d) => map (fun d => match d with Some d => map (fun k => length (texts (attr d k))) [kSCOM; kNCOM] | None => [] end)
                   [Some d; step d; match step d with Some d => step d | None => None end]
  | Err _ => []
  end.
Example C130_grows : back_again (with_comments sc_ex nc_ex) = [[4; 2]; [9; 8]; [14; 11]]%nat.
Proof. vm_compute. reflexivity. Qed.
