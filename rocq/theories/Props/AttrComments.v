(** C132: attributes of variables and values of scalar variables in the comments. *)
From Coq Require Import List NArith ZArith Bool Lia.
From Verif Require Import Py.Str Py.Res Py.Num Py.Arith Model.Dict Model.NCWrite Model.Xarray Model.Collector Spec.CollectorSpec
  Spec.TextSpec Spec.ZNum Proofs.StrLemmas Proofs.BlankLemmas Proofs.ReadFrame Proofs.CollectorLemmas
  Proofs.ConfigLemmas Proofs.CollectorFrame Props.CollectorProps Props.CommentProps Props.ToXarrayProps.
Import ListNotations.

(** ** Statement *)
(** What is told of an attribute: texts, and numbers unless the attribute has a
    meaning of its own; a list of one item counts as the item. *)
Definition technical : list str := map lit ["id"; "missing_value"; "fill_value"; "nasa_ames_var_number"; "nasa_ames_aux_var_number"]%pylit.
Inductive told {num} (k : str) : pyv num -> pyv num -> Prop :=
| told_text s : told k (PStr s) (PStr s)
| told_int z : ~ In k technical -> told k (PInt z) (PInt z)
| told_num x : ~ In k technical -> told k (PNum x) (PNum x)
| told_text_in_list s : told k (PList [PStr s]) (PStr s)
| told_int_in_list z : ~ In k technical -> told k (PList [PInt z]) (PInt z)
| told_num_in_list x : ~ In k technical -> told k (PList [PNum x]) (PNum x).
(** The lines on a variable: its name and its best name, then the attributes. *)
Definition title_line (id best : str) : str := lit "  Variable " ++ id ++ lit ": " ++ best.
Definition attribute_line (k t : str) : str := lit "    " ++ k ++ lit " = " ++ t.
(** [lines] are the lines on attributes of which [rel] tells something, in order. *)
Inductive attribute_lines {num} {Num : NumOps num} (rel : str -> pyv num -> pyv num -> Prop) : list (str * gval num) -> list str -> Prop :=
| al_nil : attribute_lines rel [] []
| al_skip k g atts lines : (forall x, ~ rel k (g_val g) x) -> attribute_lines rel atts lines -> attribute_lines rel ((k, g) :: atts) lines
| al_line k g x t atts lines : rel k (g_val g) x -> fmt_s x = Ok t -> attribute_lines rel atts lines ->
    attribute_lines rel ((k, g) :: atts) (attribute_line k t :: lines).
(** [block] is somewhere in [l], without interruption. *)
Definition within {A} (block l : list A) : Prop := exists a b, l = a ++ block ++ b.

(** ** Main variables *)
Section Attr.
Context {num : Type} {Num : NumOps num} {Ar : ArithOps num}.
Lemma shown_told k (v : pyv num) : match shown k v with Some x => told k v x | None => forall x, ~ told k v x end.
Proof.
  unfold shown. assert (T : mem_str k used_var_atts = true <-> In k technical) by apply mem_str_in.
  assert (F : mem_str k used_var_atts = false -> ~ In k technical) by (intros Q I; apply T in I; congruence).
  destruct v as [| z | x | s | [| y [| z l]]]; cbv iota beta.
  - intros x Q. inversion Q.
  - destruct (mem_str k used_var_atts) eqn:M; [| constructor; auto]. intros x Q. inversion Q; subst. tauto.
  - destruct (mem_str k used_var_atts) eqn:M; [| constructor; auto]. intros y Q. inversion Q; subst. tauto.
  - constructor.
  - intros x Q. inversion Q.
  - destruct y as [| z | x | s | l]; try (intros x0 Q; inversion Q; fail); try (constructor; fail).
    + destruct (mem_str k used_var_atts) eqn:M; [| constructor; auto]. intros y Q. inversion Q; subst; tauto.
    + destruct (mem_str k used_var_atts) eqn:M; [| constructor; auto]. intros y Q. inversion Q; subst; tauto.
  - intros x Q. inversion Q.
Qed.
Lemma told_fun k (v : pyv num) x y : told k v x -> told k v y -> x = y.
Proof. intros A B. inversion A; subst; inversion B; subst; reflexivity. Qed.
(** the state after some attributes *)
Lemma att_lines zl v name : forall atts written s s' lines, var_comments (num := num) zl v name atts written s = Ok s' -> attribute_lines told atts lines ->
  (ss_spec s = false -> ss_scom s = []) ->
  (lines = [] /\ s' = s) \/
  (lines <> [] /\ ss_spec s' = true /\ ss_var s' = true /\
   ss_scom s' = (if ss_spec s then ss_scom s else [hp_sc_start] ++ zl ++ [hp_addl_vatts; hp_ncatts_start]) ++ (if written then [] else [title_line (v_name v) name]) ++ lines).
Proof.
  induction atts as [| (k, g) t IH]; intros written s s' lines R L Em; cbn [var_comments] in R.
  - inversion L; subst. injection R as <-. left. auto.
  - assert (K := shown_told k (g_val g)). destruct (shown k (g_val g)) as [x |].
    + inversion L as [| ? ? ? ? No | ? ? y u ? lines' Ty Fu Lt]; subst; [exfalso; exact (No _ K) |]. assert (y = x) by exact (told_fun _ _ _ _ Ty K). subst y.
      cbv zeta in R. unfold att_line in R. rewrite Fu in R. cbn [bindR] in R. right. split; [discriminate |].
      destruct (IH _ _ _ _ R Lt) as [(-> & ->) | (Nl & Sp & Sv & Sc)]; [discriminate | |]; cbn [ss_spec ss_scom ss_var] in *.
      * split; [reflexivity |]. split; [reflexivity |]. destruct (ss_spec s), written; rewrite <- ?app_assoc; reflexivity.
      * split; [exact Sp |]. split; [exact Sv |]. rewrite Sc. cbn [app]. destruct (ss_spec s), written; rewrite <- ?app_assoc; cbn [app]; reflexivity.
    + inversion L as [| ? ? ? ? No Lt | ? ? y u ? lines' Ty Fu Lt]; subst; [| exfalso; exact (K _ Ty)]. exact (IH _ _ _ _ R Lt Em).
Qed.
Lemma att_total zl v name : forall atts written s s', var_comments (num := num) zl v name atts written s = Ok s' -> exists lines, attribute_lines told atts lines.
Proof.
  induction atts as [| (k, g) t IH]; intros written s s' R; cbn [var_comments] in R; [exists []; constructor |].
  assert (K := shown_told k (g_val g)). destruct (shown k (g_val g)) as [x |].
  - cbv zeta in R. bindE R l Hl. unfold att_line in Hl. bindE Hl u Hu. destruct (IH _ _ _ R) as (ls & Hs). exists (attribute_line k u :: ls). econstructor; eassumption.
  - destruct (IH _ _ _ R) as (ls & Hs). exists ls. constructor; assumption.
Qed.
Definition var_block (v : xvar num) (b : list str) : Prop :=
  exists best lines, getBestName (v_info v) = Ok best /\ attribute_lines told (n_attrs (v_info v)) lines /\
    b = match lines with [] => [] | _ => title_line (v_name v) best :: lines end.
Definition vars_step (zl : list str) (v : xvar num) (s : sst) : Res sst := bindR (getBestName (v_info v)) (fun name => var_comments zl v name (n_attrs (v_info v)) false s).
Lemma blocks zl : forall main s s', forR main (vars_step zl) s = Ok s' -> (ss_spec s = false -> ss_scom s = []) ->
  exists bs, Forall2 var_block main bs /\
    ((concat bs = [] /\ s' = s) \/
     (concat bs <> [] /\ ss_spec s' = true /\ ss_var s' = true /\ ss_scom s' = (if ss_spec s then ss_scom s else [hp_sc_start] ++ zl ++ [hp_addl_vatts; hp_ncatts_start]) ++ concat bs)).
Proof.
  induction main as [| v main IH]; intros s s' R Em; cbn [forR] in R; [injection R as <-; exists []; split; [constructor | left; auto] |].
  bindE R s1 H1. unfold vars_step in H1. bindE H1 name Hn. destruct (att_total _ _ _ _ _ _ _ H1) as (lines & Hl).
  assert (Hb : var_block v (match lines with [] => [] | _ => title_line (v_name v) name :: lines end)) by (exists name, lines; auto).
  destruct (att_lines _ _ _ _ _ _ _ _ H1 Hl Em) as [(-> & ->) | (Nl & Sp & Sv & Sc)].
  - destruct (IH _ _ R Em) as (bs & Fb & K). exists ([] :: bs). split; [constructor; assumption | exact K].
  - destruct (IH _ _ R) as (bs & Fb & K); [congruence |]. destruct lines as [| l0 lines]; [contradiction |].
    exists ((title_line (v_name v) name :: l0 :: lines) :: bs). split; [constructor; assumption |]. right. split; [discriminate |].
    destruct K as [(Z0 & ->) | (_ & Sp' & Sv' & Sc')]; cbn [concat].
    + split; [exact Sp |]. split; [exact Sv |]. rewrite Sc, Z0, app_nil_r. reflexivity.
    + split; [exact Sp' |]. split; [exact Sv' |]. rewrite Sc', Sp, Sc. cbn [app]. rewrite <- !app_assoc. reflexivity.
Qed.
Lemma scom_blocks (g : gst (num := num)) zero main sc : scom_of g zero main = Ok sc ->
  exists zl bs, rank_zero_lines zero = Ok zl /\ Forall2 var_block main bs /\
    sc = match gs_special g with
         | [] => match concat bs with [] => [] | bl => ([hp_sc_start] ++ zl ++ [hp_addl_vatts; hp_ncatts_start]) ++ bl ++ [hp_ncatts_end; hp_sc_end] end
         | sp => (hp_sc_start :: sp) ++ match concat bs with [] => [] | bl => bl ++ [hp_ncatts_end] end ++ [hp_sc_end]
         end.
Proof.
  unfold scom_of. intros R. bindE R zl Hz. cbv zeta in R. bindE R s Hs. injection R as <-. exists zl.
  change (forR main (vars_step zl) match gs_special g with [] => mkSst [] false false | sp => mkSst (hp_sc_start :: sp) true false end = Ok s) in Hs.
  destruct (blocks zl _ _ _ Hs) as (bs & Fb & K); [destruct (gs_special g); [reflexivity | discriminate] |]. exists bs. split; [exact Hz |]. split; [exact Fb |].
  destruct K as [(Z0 & ->) | (Nb & Sp & Sv & Sc)].
  - rewrite Z0. destruct (gs_special g) as [| x sp]; [reflexivity |]. reflexivity.
  - rewrite Sp, Sv, Sc. destruct (concat bs) as [| b bl] eqn:Eb; [contradiction |].
    destruct (gs_special g) as [| x sp]; cbn [ss_spec ss_scom]; rewrite <- !app_assoc; reflexivity.
Qed.

(** ** Scalar variables *)
Definition plain_value (k : str) (v x : pyv num) : Prop := v = x /\ match v with PStr _ | PInt _ | PNum _ => True | _ => False end.
Definition zero_block (v : xvar num) (b : list str) : Prop :=
  exists best lines, getBestName (v_info v) = Ok best /\ attribute_lines plain_value (n_attrs (v_info v)) lines /\ b = title_line (v_name v) best :: lines.
Lemma zero_lines zero zl : rank_zero_lines (num := num) zero = Ok zl ->
  exists bs, Forall2 zero_block zero bs /\ zl = match concat bs with [] => [] | l => [hp_sing_start] ++ l ++ [hp_sing_end] end.
Proof.
  unfold rank_zero_lines. intros R. bindE R bs Hb. injection R as <-. exists bs. split; [| reflexivity]. apply mapR_Forall2 in Hb.
  induction Hb as [| v b zero bs Q _ IHz]; constructor; [| exact IHz]. bindE Q name Hn. bindE Q ls Hl. injection Q as <-. exists name, ls. split; [exact Hn |]. split; [| reflexivity].
  clear - Hl. revert ls Hl. induction (n_attrs (v_info v)) as [| (k, g) atts IH]; intros ls Hl; [injection Hl as <-; constructor |].
  cbn [filter snd] in Hl. destruct (scalar (g_val g)) eqn:Sg.
  - cbn [mapR fst snd] in Hl. bindE Hl l0 H0. bindE Hl ls0 H1. injection Hl as <-. unfold att_line in H0. bindE H0 t Ht. injection H0 as <-.
    apply (al_line _ k g (g_val g) t atts ls0); [| exact Ht | exact (IH _ H1)]. split; [reflexivity |]. destruct (g_val g); (exact I || discriminate Sg).
  - constructor; [| exact (IH _ Hl)]. intros x (_ & Q). destruct (g_val g); (contradiction || discriminate Sg).
Qed.
Lemma lines_det (rel : str -> pyv num -> pyv num -> Prop) : (forall k v x y, rel k v x -> rel k v y -> x = y) ->
  forall atts a, attribute_lines rel atts a -> forall b, attribute_lines rel atts b -> a = b.
Proof.
  intros F atts a A. induction A as [| k g atts lines No _ IH | k g x t atts lines Y Ft _ IH]; intros b B.
  - inversion B. reflexivity.
  - inversion B; subst; [auto | exfalso; eapply No; eassumption].
  - inversion B as [| ? ? ? ? No | ? ? y u ? lines' Yy Fu Lt]; subst; [exfalso; exact (No _ Y) |]. rewrite (F _ _ _ _ Yy Y) in Fu. rewrite Ft in Fu. injection Fu as ->. f_equal. auto.
Qed.
Lemma line_kept l c t : l = c_sp :: c_sp :: t -> In c t -> is_space c = false -> one_line l -> clean_entry l = [l].
Proof.
  intros -> Ic Sc O. unfold clean_entry. destruct (is_nil (strip (c_sp :: c_sp :: t))) eqn:B.
  - apply strip_blank in B. unfold blank in B. rewrite Forall_forall in B. rewrite (B c) in Sc by (right; right; exact Ic). discriminate Sc.
  - rewrite (split_one_line _ O). cbn [hd map]. rewrite str_eqb_same. reflexivity.
Qed.
Lemma title_kept id best : one_line (title_line id best) -> clean_entry (title_line id best) = [title_line id best].
Proof. intros O. apply (line_kept _ 86%N (lit "Variable " ++ id ++ lit ": " ++ best)); [reflexivity | left; reflexivity | reflexivity | exact O]. Qed.
Lemma attribute_kept k t : one_line (attribute_line k t) -> clean_entry (attribute_line k t) = [attribute_line k t].
Proof.
  intros O. apply (line_kept _ 61%N (lit "  " ++ k ++ lit " = " ++ t)); [reflexivity | | reflexivity | exact O].
  apply in_or_app. right. apply in_or_app. right. apply in_or_app. left. right. left. reflexivity.
Qed.
Lemma lines_clean rel atts lines : attribute_lines (num := num) rel atts lines -> Forall one_line lines -> clean lines = lines.
Proof.
  induction 1 as [| k g atts lines No _ IH | k g x t atts lines Y Ft _ IH]; intros F; [reflexivity | auto |]. inversion F; subst.
  unfold clean in *. cbn [flat_map]. rewrite attribute_kept by assumption. rewrite IH by assumption. reflexivity.
Qed.
Lemma clean_parts a b : clean (a ++ b) = clean a ++ clean b.
Proof. apply flat_map_app. Qed.
Lemma within_block {A} (R : A -> list str -> Prop) vs bs v : Forall2 R vs bs -> In v vs -> exists b, R v b /\ within b (concat bs).
Proof.
  induction 1 as [| x b vs bs Hx _ IH]; intros I; [contradiction |]. destruct I as [-> | I].
  - exists b. split; [exact Hx |]. exists [], (concat bs). reflexivity.
  - destruct (IH I) as (b' & Rb & x1 & x2 & Q). exists b'. split; [exact Rb |]. cbn [concat]. rewrite Q. exists (b ++ x1), x2. rewrite <- app_assoc. reflexivity.
Qed.
Lemma within_clean block l : within block l -> clean block = block -> within block (clean l).
Proof. intros (a & b & ->) C. rewrite !clean_parts, C. exists (clean a), (clean b). reflexivity. Qed.
Lemma within_more {A} (block l a b : list A) : within block l -> within block (a ++ l ++ b).
Proof. intros (x & y & ->). exists (a ++ x), (y ++ b). rewrite <- !app_assoc. reflexivity. Qed.
Variable E : env num.
Lemma collect_comments req globals vars c (d : na num) : collectNAContent E req globals vars = Ok c -> c_na c = Some d ->
  exists d2 g sc, defineNAGlobals E globals d2 = Ok g /\ scom_of g (c_zero c) (c_main c) = Ok sc /\ d kSCOM = Some (PList (map PStr (clean sc))).
Proof.
  unfold collectNAContent. intros R N. bindE R a Ha. destruct a as [a |]; [| injection R as <-; discriminate N]. cbv zeta in R.
  bindE R d1 H1. bindE R d2 H2. bindE R g Hg. bindE R d3 H3. bindE R v Hv. bindE R ax0 Hx. injection R as <-. cbn [c_na c_zero c_main] in *. injection N as <-.
  unfold defineNAComments in H3. cbv zeta in H3. bindE H3 sc Hsc. injection H3 as <-. exists d2, g, sc. split; [exact Hg |]. split; [exact Hsc |].
  rewrite (same_header E ax0 _) by (cbn; intuition discriminate). reflexivity.
Qed.
Lemma no_special globals d2 (g : gst (num := num)) : defineNAGlobals E globals d2 = Ok g -> ~ In (lit "comment") (map fst globals) -> gs_special g = [].
Proof.
  unfold defineNAGlobals. intros R N. refine (forR_inv (fun s => gs_special s = []) _ _ _ _ _ R eq_refl). intros (n, v) s s' I Q P. rewrite <- P. clear P R.
  assert (Nn : n <> lit "comment") by (intros ->; apply N; apply (in_map fst) in I; exact I). unfold global_item in Q. cbv zeta in Q.
  destruct (str_eqb n (lit "first_valid_date_of_data")); [destruct (numpy_scalar v); [discriminate Q | injection Q as <-; reflexivity] |].
  match type of Q with (if ?b then _ else _) = _ => destruct b end; [injection Q as <-; reflexivity |].
  destruct (str_eqb n (lit "history")); [bindE Q t Ht; injection Q as <-; reflexivity |].
  destruct (str_eqb n (lit "institution")).
  { destruct (g_val v); try discriminate Q. destruct (match institution_match s0 with Some p => p | None => (s0, s0) end). injection Q as <-. reflexivity. }
  destruct (str_eqb n (lit "comment")) eqn:Qc; [apply str_eqb_eq in Qc; contradiction |].
  destruct (lookup n plain_map); [injection Q as <-; reflexivity | bindE Q t Ht; injection Q as <-; reflexivity].
Qed.
End Attr.

(** ** C132 *)
(** Of every main variable, the lines on all its attributes are among the special
    comments, in order, after a line with its name. *)
Theorem C132_attributes : forall num (Num : NumOps num) (Ar : ArithOps num) (E : env num) req globals (vars : list (xvar num)) cs c,
  convert E req globals vars = Ok (Some cs) -> In c cs ->
  exists d scom, c_na c = Some d /\ d kSCOM = Some (PList (map PStr scom)) /\
    forall v, In v (c_main c) -> exists best lines,
      getBestName (v_info v) = Ok best /\ attribute_lines told (n_attrs (v_info v)) lines /\
      (lines <> [] -> one_line (title_line (v_name v) best) -> Forall one_line lines -> within (title_line (v_name v) best :: lines) scom).
Proof.
  intros num Num Ar E req globals vars cs c R I.
  destruct (convert_each E _ _ _ _ _ R I) as (vs & C & Nc & _). destruct (c_na c) as [d |] eqn:Ec; [| congruence].
  destruct (collect_comments E _ _ _ _ _ C Ec) as (d2 & g & sc & Hg & Hsc & K). exists d, (clean sc). split; [reflexivity |]. split; [exact K |].
  intros v Iv. destruct (scom_blocks _ _ _ _ Hsc) as (zl & bs & _ & Fb & Es).
  destruct (within_block _ _ _ _ Fb Iv) as (b & (best & lines & Hb & Hl & Eb) & W). exists best, lines. split; [exact Hb |]. split; [exact Hl |].
  intros Nl Ot Ol. apply within_clean.
  - assert (W' : within (title_line (v_name v) best :: lines) (concat bs)). { destruct lines as [| l0 lines]; [contradiction |]. rewrite <- Eb. exact W. }
    destruct (concat bs) as [| b0 bl]; [destruct W' as (x & y & Q); destruct x; discriminate Q |]. rewrite Es.
    destruct (gs_special g) as [| s0 sp]; [apply within_more, W' |]. rewrite <- app_assoc. apply within_more, W'.
  - change (title_line (v_name v) best :: lines) with ([title_line (v_name v) best] ++ lines). rewrite clean_parts, (lines_clean _ _ _ Hl Ol).
    unfold clean at 1. cbn [flat_map]. rewrite (title_kept _ _ Ot). reflexivity.
Qed.
Print Assumptions C132_attributes.
(** The same for scalar variables, with all their attributes of which value is
    one, when the file has no attribute comment and some attribute of a main
    variable is told. *)
Theorem C132_scalars_partial : forall num (Num : NumOps num) (Ar : ArithOps num) (E : env num) req globals (vars : list (xvar num)) cs c,
  convert E req globals vars = Ok (Some cs) -> In c cs ->
  ~ In (lit "comment") (map fst globals) -> (exists v k g x, In v (c_main c) /\ In (k, g) (n_attrs (v_info v)) /\ told k (g_val g) x) ->
  exists d scom, c_na c = Some d /\ d kSCOM = Some (PList (map PStr scom)) /\
    forall v, In v (c_zero c) -> exists best lines,
      getBestName (v_info v) = Ok best /\ attribute_lines plain_value (n_attrs (v_info v)) lines /\
      (one_line (title_line (v_name v) best) -> Forall one_line lines -> within (title_line (v_name v) best :: lines) scom).
Proof.
  intros num Num Ar E req globals vars cs c R I Ng (v & k & gv & x & Iv & Ik & Tk).
  destruct (convert_each E _ _ _ _ _ R I) as (vs & C & Nc & _). destruct (c_na c) as [d |] eqn:Ec; [| congruence].
  destruct (collect_comments E _ _ _ _ _ C Ec) as (d2 & g & sc & Hg & Hsc & K). exists d, (clean sc). split; [reflexivity |]. split; [exact K |].
  destruct (scom_blocks _ _ _ _ Hsc) as (zl & bs & Hz & Fb & Es). rewrite (no_special E _ _ _ Hg Ng) in Es.
  assert (Nb : concat bs <> []).
  { destruct (within_block _ _ _ _ Fb Iv) as (b & (best & lines & Hb & Hl & Eb) & W). assert (Nl : lines <> []).
    { clear - Hl Ik Tk. induction Hl as [| k' g' atts lines No _ IH | k' g' y t atts lines Y Ft _ IH]; [contradiction | | discriminate].
      destruct Ik as [Q | Ik]; [injection Q as -> ->; exfalso; exact (No _ Tk) | exact (IH Ik)]. }
    destruct lines; [contradiction |]. subst b. destruct W as (a1 & a2 & Q). rewrite Q. destruct a1; discriminate. }
  intros w Iw. destruct (zero_lines _ _ Hz) as (zs & Fz & Ez). destruct (within_block _ _ _ _ Fz Iw) as (b & (best & lines & Hb & Hl & Eb) & W). subst b.
  exists best, lines. split; [exact Hb |]. split; [exact Hl |]. intros Ot Ol. apply within_clean.
  - destruct (concat bs) as [| b0 bl]; [contradiction |]. rewrite Es. destruct (concat zs) as [| z0 zt]; [destruct W as (a1 & a2 & Q); destruct a1; discriminate Q |].
    rewrite Ez. rewrite <- !app_assoc. 
    apply (within_more _ _ ([hp_sc_start] ++ [hp_sing_start]) ([hp_sing_end] ++ [hp_addl_vatts; hp_ncatts_start] ++ (b0 :: bl) ++ [hp_ncatts_end; hp_sc_end])) in W.
    rewrite <- !app_assoc in W. exact W.
  - change (title_line (v_name w) best :: lines) with ([title_line (v_name w) best] ++ lines). rewrite clean_parts, (lines_clean _ _ _ Hl Ol).
    unfold clean at 1. cbn [flat_map]. rewrite (title_kept _ _ Ot). reflexivity.
Qed.
Print Assumptions C132_scalars_partial.

Lemma set_attr_new {num} k (g : gval num) l : In (k, g) (set_attr k g l).
Proof.
  unfold set_attr. destruct (mem_str k (map fst l)) eqn:Mv; [| apply in_or_app; right; left; reflexivity].
  apply mem_str_in in Mv. apply in_map_iff in Mv as ((k', g') & Qk & Ik). cbn [fst] in Qk. subst k'. apply in_map_iff. exists (k, g').
  split; [cbn [fst]; rewrite str_eqb_same; reflexivity | exact Ik].
Qed.
Lemma set_attr_old {num} k (g : gval num) l k' g' : k' <> k -> In (k', g') l -> In (k', g') (set_attr k g l).
Proof.
  intros Nk Ik. unfold set_attr. destruct (mem_str k (map fst l)); [| apply in_or_app; left; exact Ik].
  apply in_map_iff. exists (k', g'). split; [| exact Ik]. cbn [fst]. rewrite (str_eqb_diff _ _ Nk). reflexivity.
Qed.
(** The scalar variables of the first dictionary are those of the input whose best
    name is not the name of a dimension, with the value as an attribute. *)
Theorem C132_values : forall num (Num : NumOps num) (Ar : ArithOps num) (E : env num) req globals (vars : list (xvar num)) c cs,
  convert E req globals vars = Ok (Some (c :: cs)) ->
  forall v best, In v vars -> v_axes v = [] -> getBestName (v_info v) = Ok best -> (forall u ax, In u vars -> In ax (v_axes u) -> n_name (ax_info ax) <> best) ->
  exists w, In w (c_zero c) /\ v_name w = best /\ In (lit "value", mkG true (v_data v)) (n_attrs (v_info w)) /\
    forall k g, k <> lit "value" -> In (k, g) (n_attrs (v_info v)) -> In (k, g) (n_attrs (v_info w)).
Proof.
  intros num Num Ar E req globals vars c cs R v best Iv Av Bv Nd.
  destruct (convert_some E _ _ _ _ R) as (vs & vs' & c0 & rest & M & O & C & Nc & _ & Q). injection Q as <- <-.
  destruct (c_na c) as [d |] eqn:Ec; [| congruence]. destruct (collect_some E _ _ _ _ _ C Ec) as (a & Ha & _ & _ & _ & Ez).
  destruct (analyse_inv E _ _ _ Ha) as (i & bst & lim & s & _ & _ & _ & _ & _ & _ & _ & Za & _). rewrite Ez, Za. clear Ez Za Ha.
  assert (Hw : exists w, In w vs /\ convertSingleton v = Ok w).
  { apply mapR_Forall2 in M. clear - M Iv. induction M as [| x y l l' Q _ IH]; [contradiction |]. destruct Iv as [-> | Iv]; [exists y; split; [left |]; auto |].
    destruct (IH Iv) as (w & I & J). exists w. split; [right; exact I | exact J]. }
  destruct Hw as (w & Iw & Hw). unfold convertSingleton, rank in Hw. rewrite Av, Bv in Hw. injection Hw as <-. match type of Iw with In ?w _ => exists w end. split; [| split; [reflexivity | split]].
  - apply filter_In. split; [| reflexivity]. unfold reorderVars in O. destruct (5000 <? length vs)%nat; [discriminate O |]. injection O as <-.
    apply filter_In. split; [exact Iw |]. fold (dims vs). destruct (singletons _ _ M) as (_ & B & _). rewrite (dims_map _ _ B). unfold v_name at 1. cbn [v_info n_name].
    destruct (mem_str best (dims vars)) eqn:Md; [| reflexivity]. exfalso. apply mem_str_in in Md. unfold dims in Md. apply in_flat_map in Md as (u & Iu & J).
    apply in_map_iff in J as (ax & Qx & Ix). exact (Nd u ax Iu Ix Qx).
  - exact (set_attr_new (lit "value") (mkG true (v_data v)) (n_attrs (v_info v))).
  - intros k g Nk Ik. exact (set_attr_old (lit "value") (mkG true (v_data v)) (n_attrs (v_info v)) k g Nk Ik).
Qed.
Print Assumptions C132_values.

(** Two attributes, one of them technical, and a scalar variable. *)
Definition txt (s : str) : gval Z := mkG false (PStr s).
Definition with_atts : list (xvar Z) :=
  [var (lit "p") [(lit "units", txt (lit "hPa")); (lit "missing_value", mkG false (PInt 9)); (lit "level", mkG false (PList [PInt 2%Z]))] [ts] (data [1; 2]%Z);
   var (lit "s") [(lit "units", txt (lit "m"))] [] (PNum 7%Z)].
Definition special_of (globals : list (str * gval Z)) (vars : list (xvar Z)) : list (list (pyv Z)) :=
  match convert env_Z None globals vars with
  | Ok (Some cs) => map (fun c => match c_na c with Some d => match attr d kSCOM with PList l => l | _ => [] end | None => [] end) cs
  | _ => []
  end.
Example C132_example : special_of [] with_atts = [map PStr (map lit
  ["==== Special Comments follow ===="; "== Singleton Variables defined in the source file follow =="; "  Variable s (m): s  (m)"; "    units = m"; "    value = 7";
   "== Singleton Variables defined in the source file end =="; "=== Additional Variable Attributes defined in the source file ===";
   "== Variable attributes from source (NetCDF) file follow =="; "  Variable p: p (hPa)"; "    units = hPa"; "    level = 2";
   "== Variable attributes from source (NetCDF) file end =="; "==== Special Comments end ===="]%pylit)].
Proof. vm_compute. reflexivity. Qed.
(** False of the code without the conditions: no line is about the scalar when the
    file has special comments of its own, or when no attribute of a main variable
    is told. *)
Definition about (id : str) (l : list (pyv Z)) : Prop := exists rest, In (PStr (lit "  Variable " ++ id ++ rest)) l.
Theorem C132_refuted :
  (exists globals scom, special_of globals with_atts = [scom] /\ In (PStr (lit "note")) scom /\ ~ about (lit "s") scom) /\
  (exists (v s : xvar Z), v_axes s = [] /\ special_of [] [v; s] = [[]]).
Proof.
  split.
  - exists [(lit "comment", txt (lit "==== Special Comments follow ====" ++ nl ++ lit "note"))]. eexists. split; [vm_compute; reflexivity |].
    split; [right; left; reflexivity |]. intros (rest & I). repeat (destruct I as [I | I]; [discriminate I |]). exact I.
  - exists (var (lit "p") [] [ts] (data [1; 2]%Z)), (var (lit "s") [(lit "units", txt (lit "m"))] [] (PNum 7%Z)). split; [reflexivity |]. vm_compute. reflexivity.
Qed.
Print Assumptions C132_refuted.
