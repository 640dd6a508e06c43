(** Lockstep simulation of two writers with different delimiters (property C67). *)
From Coq Require Import List NArith ZArith Bool Lia.
From Verif Require Import Py.Str Py.Res Py.Num Model.Dict Model.TextParser Model.CommonUtils
  Model.NAWrite Spec.RowSpec Proofs.StrLemmas Proofs.NumLemmas Proofs.TextLemmas Proofs.WriteFrame
  Proofs.WriteSim Proofs.HeaderLemmas.
From Verif Require Proofs.Annot.
Import ListNotations.

Lemma rows_text_app d a b : rows_text d (a ++ b) = rows_text d a ++ rows_text d b.
Proof. unfold rows_text. now rewrite map_app, concat_app. Qed.
Lemma rows_text_cons d r rs : rows_text d (r :: rs) = join d r ++ nl ++ rows_text d rs.
Proof. unfold rows_text. cbn [map concat]. now rewrite <- app_assoc. Qed.
Lemma join_cons d x l : l <> [] -> join d (x :: l) = x ++ d ++ join d l.
Proof. destruct l; [congruence|reflexivity]. Qed.
Lemma bc_no_nl d : blank_or_comma d -> mem_chr c_nl d = false.
Proof. intros Hd. apply mem_chr_false. intros Hi. destruct (Hd _ Hi); discriminate. Qed.
Lemma count_join c d l : count_chr c (join d l) = (fold_right (fun s n => count_chr c s + n) 0 l + pred (length l) * count_chr c d)%nat.
Proof.
  induction l as [|x l IH]; [reflexivity|]. destruct l as [|y l].
  - cbn. lia.
  - rewrite join_cons by congruence. rewrite !count_chr_app, IH. cbn [fold_right length pred]. lia.
Qed.

Section Delim.
Context {num : Type} `{NumOps num}.
Local Notation W := (W num).
Variables o1 o2 : opts num.
Hypothesis A1 : o_annot o1 = false.
Hypothesis A2 : o_annot o2 = false.
Hypothesis Hf : o_fmt o2 = o_fmt o1.
Hypothesis Hsolid : solid_numbers o1.
Local Notation d1 := (o_delim o1).
Local Notation d2 := (o_delim o2).
Hypothesis D1 : blank_or_comma d1.
Hypothesis D2 : blank_or_comma d2.

Definition T (a b : str) : Prop := exists rows, a = rows_text d1 rows /\ b = rows_text d2 rows.
Lemma T_nil : T [] []. Proof. now exists []. Qed.
Lemma T_app a b a' b' : T a b -> T a' b' -> T (a ++ a') (b ++ b').
Proof. intros (r & -> & ->) (q & -> & ->). exists (r ++ q). now rewrite !rows_text_app. Qed.
Lemma T_row r : T (join d1 r ++ nl) (join d2 r ++ nl).
Proof. exists [r]. unfold rows_text. cbn [map concat]. now rewrite !app_nil_r. Qed.
Lemma T_line s : T (s ++ nl) (s ++ nl). Proof. apply (T_row [s]). Qed.
Lemma T_lines ss : T (concat (map (fun s => s ++ nl) ss)) (concat (map (fun s => s ++ nl) ss)).
Proof. induction ss; [apply T_nil|]. cbn [map concat]. apply T_app; auto. apply T_line. Qed.
Lemma T_ends a b : T a b -> ends_nl a /\ ends_nl b.
Proof.
  intros (rows & -> & ->). destruct rows as [|r rows] using rev_ind; [split; now left|].
  rewrite !rows_text_app. unfold rows_text at 2 4. cbn [map concat]. rewrite !app_nil_r.
  split; right; rewrite app_assoc; eauto.
Qed.
Lemma T_count a b : T a b -> count_chr c_nl a = count_chr c_nl b.
Proof.
  intros (rows & -> & ->). induction rows as [|r rows IH]; [reflexivity|].
  rewrite !rows_text_cons, !count_chr_app, IH, !count_join.
  assert (count_chr c_nl d1 = O) as -> by now apply count_chr_mem, bc_no_nl.
  assert (count_chr c_nl d2 = O) as -> by now apply count_chr_mem, bc_no_nl. lia.
Qed.
(** The first line can be taken off. *)
Lemma join_first (r : list str) : mem_chr c_nl (concat r) = true ->
  exists q r', mem_chr c_nl (join d1 q) = false /\ mem_chr c_nl (join d2 q) = false /\ 
   join d1 r = join d1 q ++ nl ++ join d1 r' /\ join d2 r = join d2 q ++ nl ++ join d2 r'.
Proof.
  pose proof (bc_no_nl _ D1) as N1. pose proof (bc_no_nl _ D2) as N2.
  induction r as [|x r IH]; [discriminate|]. cbn [concat]. rewrite mem_chr_app. intros Hm.
  destruct (mem_chr c_nl x) eqn:Ex.
  - destruct (Annot.split_first _ Ex) as (u & v & -> & Hu). exists [u], (v :: r). split; [exact Hu|]. split; [exact Hu|].
    destruct r; [cbn [join]; auto|]. rewrite !(join_cons _ (u ++ nl ++ v)), !(join_cons _ v) by congruence. rewrite <- !app_assoc. auto.
  - cbn [orb] in Hm. destruct (IH Hm) as (q & r' & Q1 & Q2 & E1 & E2).
    assert (Hr : r <> []) by (destruct r; [discriminate|congruence]).
    destruct q as [|y q].
    + exists [x; []], r'. rewrite !(join_cons _ x) by congruence. cbn [join app] in *. rewrite !app_nil_r, !mem_chr_app, Ex, N1, N2, E1, E2.
      rewrite <- !app_assoc. destruct r; [congruence|auto].
    + exists (x :: y :: q), r'. rewrite (join_cons d1 x r), (join_cons d2 x r), !(join_cons _ x (y :: q)), E1, E2 by congruence. rewrite !mem_chr_app, Ex, N1, N2, Q1, Q2.
      rewrite <- !app_assoc. auto.
Qed.
Lemma mem_concat_join (d : str) (r : list str) : mem_chr c_nl d = false -> mem_chr c_nl (concat r) = false -> mem_chr c_nl (join d r) = false.
Proof.
  intros Hd. induction r as [|x r IH]; [auto|]. cbn [concat]. rewrite mem_chr_app, orb_false_iff. intros [Hx Hr].
  destruct r; [exact Hx|]. rewrite join_cons by congruence. rewrite !mem_chr_app, Hx, Hd. auto.
Qed.
Lemma T_first a b : T a b -> (a = [] /\ b = []) \/
  exists u v u' v', a = u ++ nl ++ v /\ b = u' ++ nl ++ v' /\ mem_chr c_nl u = false /\ mem_chr c_nl u' = false /\ T v v'.
Proof.
  intros (rows & -> & ->). destruct rows as [|r rows]; [now left|]. right. rewrite !rows_text_cons.
  destruct (mem_chr c_nl (concat r)) eqn:E.
  - destruct (join_first _ E) as (q & r' & Q1 & Q2 & -> & ->).
    exists (join d1 q), (join d1 r' ++ nl ++ rows_text d1 rows), (join d2 q), (join d2 r' ++ nl ++ rows_text d2 rows).
    rewrite <- !app_assoc. repeat split; auto. exists (r' :: rows). now rewrite !rows_text_cons.
  - exists (join d1 r), (rows_text d1 rows), (join d2 r), (rows_text d2 rows). repeat split; try (apply mem_concat_join; auto using bc_no_nl).
    now exists rows.
Qed.

(** ** Lockstep *)
Definition S2 (s1 s2 : wst num) : Prop := w_na s2 = w_na s1 /\ T (w_head s1) (w_head s2) /\ T (w_file s1) (w_file s2).
Definition rel {A} (R : A -> A -> Prop) (r0 r1 : Res A) : Prop :=
  match r0, r1 with Ok a, Ok b => R a b | Err e, Err e' => e = e' | _, _ => False end.
Definition sim {A} (R : A -> A -> Prop) (m0 m1 : W A) : Prop := forall s0 s1, S2 s0 s1 ->
  S2 (snd (m0 s0)) (snd (m1 s1)) /\ rel R (fst (m0 s0)) (fst (m1 s1)).
Lemma sim_bind {A B} (R : A -> A -> Prop) (Q : B -> B -> Prop) m0 m1 f0 f1 :
  sim R m0 m1 -> (forall a b, R a b -> sim Q (f0 a) (f1 b)) -> sim Q (bindW m0 f0) (bindW m1 f1).
Proof.
  intros Hm Hk s0 s1 Hs. destruct (Hm _ _ Hs) as [Hs' Hr]. unfold bindW.
  destruct (m0 s0) as [[a|e] t0], (m1 s1) as [[b|e'] t1]; simpl in *; try contradiction.
  - apply Hk; auto.
  - auto.
Qed.
Lemma sim_ret {A} (R : A -> A -> Prop) a b : R a b -> sim R (retW a) (retW b).
Proof. intros HR s0 s1 Hs. simpl. auto. Qed.
Lemma sim_lift {A} (R : A -> A -> Prop) r0 r1 : rel R r0 r1 -> sim R (liftW r0) (liftW r1).
Proof. intros HR s0 s1 Hs. simpl. auto. Qed.
Lemma rel_eq {A} (r : Res A) : rel eq r r. Proof. destruct r; reflexivity. Qed.
Lemma sim_self k : sim eq (self (num:=num) k) (self k).
Proof. intros s0 s1 Hs. split; [exact Hs|]. destruct Hs as (E & _). simpl. now rewrite E. Qed.
Lemma sim_self_int k : sim eq (self_int (num:=num) k) (self_int k).
Proof. eapply sim_bind; [apply sim_self|]. intros a b <-. apply sim_lift, rel_eq. Qed.
Lemma sim_self_list k : sim eq (self_list (num:=num) k) (self_list k).
Proof. eapply sim_bind; [apply sim_self|]. intros a b <-. apply sim_lift, rel_eq. Qed.
Lemma sim_hwrite a b : T a b -> sim eq (hwrite a) (hwrite b).
Proof. intros Ht s0 s1 (E & Hh & Hg). simpl. split; [|reflexivity]. split; [exact E|]. split; auto. now apply T_app. Qed.
Lemma sim_fwrite a b : T a b -> sim eq (fwrite a) (fwrite b).
Proof. intros Ht s0 s1 (E & Hh & Hg). simpl. split; [|reflexivity]. split; [exact E|]. split; auto. now apply T_app. Qed.
Lemma sim_hwrap item a b : T a b -> sim eq (hwrap o1 item a) (hwrap o2 item b).
Proof. intros Ht. unfold hwrap, wrapLine, annotateLine. rewrite A1, A2. now apply sim_hwrite. Qed.
Lemma plain_from (o : opts num) item ls n : o_annot o = false -> annotate_from o item ls n = Ok (concat ls).
Proof.
  intros Ho. revert n. induction ls as [|l ls IH]; intros n; [reflexivity|]. cbn [annotate_from].
  rewrite IH. unfold annotateLine. rewrite Ho. reflexivity.
Qed.
Lemma sim_hwraps item a b : T a b -> sim eq (hwraps o1 item a) (hwraps o2 item b).
Proof.
  intros Ht. unfold hwraps, wrapLines, annotateLines. rewrite !plain_from by auto.
  rewrite !splitlines_concat. now apply sim_hwrite.
Qed.
Lemma sim_reverse k : sim eq (reverse_in_place (num:=num) k) (reverse_in_place k).
Proof.
  eapply sim_bind; [apply sim_self|]. intros v ? <-. eapply sim_bind; [apply sim_lift, rel_eq|]. intros w ? <-.
  intros s0 s1 (E & Hh & Hg). simpl. split; [|reflexivity]. split; [simpl; now rewrite E|]. now split.
Qed.
Lemma sim_forW {A} (l : list A) f0 f1 : (forall a, sim eq (f0 a) (f1 a)) -> sim eq (forW l f0) (forW l f1).
Proof.
  intros Hk. induction l as [|x l IH]; simpl; [apply sim_ret; reflexivity|].
  eapply sim_bind; [apply Hk|]. intros _ _ _. exact IH.
Qed.
Lemma sim_forW2 {A} (R : A -> A -> Prop) l l' f0 f1 : Forall2 R l l' -> (forall a b, R a b -> sim eq (f0 a) (f1 b)) -> sim eq (forW l f0) (forW l' f1).
Proof.
  intros Hl Hk. induction Hl; simpl; [apply sim_ret; reflexivity|].
  eapply sim_bind; [now apply Hk|]. intros _ _ _. auto.
Qed.
Lemma sim_eqb {A B} (Q : B -> B -> Prop) m0 m1 (f0 f1 : A -> W B) :
  sim eq m0 m1 -> (forall a, sim Q (f0 a) (f1 a)) -> sim Q (bindW m0 f0) (bindW m1 f1).
Proof. intros Hm Hk. eapply sim_bind; [exact Hm|]. intros a b <-. apply Hk. Qed.

(** ** Texts *)
Lemma rel_fmt_sep n l : rel T (fmt_sep (num:=num) d1 n l) (fmt_sep d2 n l).
Proof.
  unfold fmt_sep. destruct (Nat.eqb _ _); [|reflexivity]. destruct (mapR fmt_s l); simpl; [|reflexivity]. apply T_row.
Qed.
Lemma rel_fmt_sep1 sep l : rel T (fmt_sep (num:=num) sep 0 l) (fmt_sep sep 0 l).
Proof.
  unfold fmt_sep. destruct (Nat.eqb _ _); [|reflexivity]. destruct (mapR fmt_s l); simpl; [|reflexivity]. apply T_line.
Qed.
Lemma rel_fmt_lines n l : rel T (fmt_lines (num:=num) n l) (fmt_lines n l).
Proof.
  unfold fmt_lines. destruct (Nat.eqb _ _); [|reflexivity]. destruct (mapR fmt_s l); simpl; [|reflexivity]. apply T_lines.
Qed.
Lemma rel_fmt_dx n l : rel T (fmt_dx_1010 (num:=num) n l) (fmt_dx_1010 n l).
Proof.
  unfold fmt_dx_1010. destruct (Nat.eqb _ _); [|reflexivity]. destruct (mapR fmt_s l); simpl; [|reflexivity]. apply T_line.
Qed.
(** Items, each followed by the delimiter. *)
Definition TI (a b : str) : Prop := exists items, Forall solid items /\
  a = concat (map (fun i => i ++ d1) items) /\ b = concat (map (fun i => i ++ d2) items).
Lemma TI_app a b a' b' : TI a b -> TI a' b' -> TI (a ++ a') (b ++ b').
Proof.
  intros (r & Hr & -> & ->) (q & Hq & -> & ->). exists (r ++ q). rewrite !map_app, !concat_app.
  split; auto. now apply Forall_app.
Qed.
Lemma rel_item v : rel TI (fmt_item o1 v) (fmt_item o2 v).
Proof.
  assert (K : forall x, TI (o_fmt o1 x ++ d1) (o_fmt o2 x ++ d2)).
  { intros x. exists [o_fmt o1 x]. rewrite Hf. cbn [map concat]. rewrite !app_nil_r. repeat split. constructor; auto. }
  unfold fmt_item. destruct v; simpl; auto.
Qed.
Lemma rel_mapR {A B} (R : B -> B -> Prop) (l : list A) f g : (forall a, rel R (f a) (g a)) -> rel (Forall2 R) (mapR f l) (mapR g l).
Proof.
  intros Hk. induction l as [|x l IH]; simpl; [constructor|]. specialize (Hk x).
  destruct (f x), (g x); simpl in *; try contradiction; auto.
  destruct (mapR f l), (mapR g l); simpl in *; try contradiction; auto.
Qed.
Lemma TI_concat l l' : Forall2 TI l l' -> TI (concat l) (concat l').
Proof. induction 1; [exists []; now repeat split|]. cbn [concat]. now apply TI_app. Qed.
Lemma rel_cat {A} (l : list A) f : rel TI (cat_items o1 l f) (cat_items o2 l f).
Proof.
  unfold cat_items. assert (K : rel (Forall2 TI) (mapR (fun i => bindR (f i) (fmt_item o1)) l) (mapR (fun i => bindR (f i) (fmt_item o2)) l)).
  { apply rel_mapR. intros a. destruct (f a); simpl; [apply rel_item|reflexivity]. }
  destruct (mapR _ l), (mapR _ l); simpl in *; try contradiction; auto. now apply TI_concat.
Qed.
Lemma sc_delim d : blank_or_comma d -> forallb is_sp_comma d = true.
Proof. intros Hd. apply forallb_forall. intros c Hi. destruct (Hd c Hi); subst; reflexivity. Qed.
Lemma items_end (d : str) (items : list str) : items <> [] -> concat (map (fun i => i ++ d) items) = join d items ++ d.
Proof.
  induction items as [|x items IH]; [congruence|]. intros _. cbn [map concat]. destruct items as [|y items].
  - cbn. now rewrite app_nil_r.
  - rewrite IH by congruence. rewrite (join_cons _ x) by congruence. now rewrite <- !app_assoc.
Qed.
Lemma solid_join (d : str) (items : list str) : Forall solid items -> items <> [] -> solid (join d items).
Proof.
  induction 1 as [|x l Hx Hl IH]; [congruence|]. intros _. destruct l as [|y l]; [exact Hx|].
  destruct IH as (t & c & E & Hc); [congruence|]. rewrite join_cons, E by congruence. exists (x ++ d ++ t), c. rewrite <- !app_assoc. auto.
Qed.
Lemma rstrip_items (d : str) (items : list str) : blank_or_comma d -> Forall solid items -> rstrip_sc (concat (map (fun i => i ++ d) items)) = join d items.
Proof.
  intros Hd Hi. destruct items as [|x l]; [reflexivity|]. rewrite items_end by congruence.
  unfold rstrip_sc. rewrite rstrip_by_app by now apply sc_delim.
  destruct (solid_join d (x :: l) Hi) as (t & c & E & Hs & Hc); [congruence|]. rewrite E. apply rstrip_by_last.
  unfold is_sp_comma. destruct (N.eqb_spec c c_sp) as [->|]; [discriminate|]. now destruct (N.eqb_spec c c_comma).
Qed.
Lemma TI_line a b : TI a b -> T (rstrip_sc a ++ nl) (rstrip_sc b ++ nl).
Proof. intros (items & Hi & -> & ->). rewrite !rstrip_items by auto. apply T_row. Qed.
Lemma sim_data_line a b : T (rstrip_sc a ++ nl) (rstrip_sc b ++ nl) -> sim eq (write_data_line o1 a) (write_data_line o2 b).
Proof. intros Ht. unfold write_data_line, wrapLine, annotateLine. rewrite A1, A2. now apply sim_fwrite. Qed.

(** ** Headers *)
Lemma sim_okb {A B} (Q : B -> B -> Prop) (a : A) (f0 f1 : A -> W B) :
  sim Q (f0 a) (f1 a) -> sim Q (bindW (liftW (Ok a)) f0) (bindW (liftW (Ok a)) f1).
Proof. auto. Qed.
Lemma T_line0 s : T ([] ++ s ++ nl) ([] ++ s ++ nl). Proof. apply T_line. Qed.
Ltac step := first
  [ apply sim_okb; cbv beta
  | apply sim_eqb; [solve [apply sim_self | apply sim_self_int | apply sim_self_list | apply sim_reverse]|intros ?]
  | (eapply (sim_bind T); [apply sim_lift; solve [apply rel_fmt_sep | apply rel_fmt_sep1 | apply rel_fmt_lines | apply rel_fmt_dx]|intros ? ? ?])
  | (eapply (sim_bind TI); [apply sim_lift; apply rel_cat|intros ? ? ?])
  | apply sim_eqb; [apply sim_lift; apply rel_eq|intros ?] ].
Ltac leaf := first
  [ apply sim_hwrap; solve [assumption | apply T_line]
  | apply sim_hwraps; assumption
  | (apply sim_ret; reflexivity)
  | apply sim_hwrite; solve [assumption | apply T_line0 | apply T_line] ].
Ltac go := repeat first [ leaf | step | apply sim_eqb; [|intros _] | match goal with |- sim _ (if ?b then _ else _) _ => destruct b end ].
Lemma T_pair a b : T (a ++ d1 ++ b ++ nl) (a ++ d2 ++ b ++ nl).
Proof. pose proof (T_row [a; b]) as K. cbn [join] in K. rewrite <- !app_assoc in K. exact K. Qed.
Lemma T_assoc a b c d : T ((a ++ b) ++ nl) ((c ++ d) ++ nl) -> T (a ++ b ++ nl) (c ++ d ++ nl).
Proof. now rewrite !app_assoc. Qed.
Lemma no_ann (o : opts num) item n : o_annot o = false -> getAnnotation o item n = Ok [].
Proof. intros Ho. unfold getAnnotation. now rewrite Ho. Qed.
Lemma sim_common : sim eq (writeCommonHeader o1) (writeCommonHeader o2).
Proof.
  unfold writeCommonHeader. rewrite !no_ann by auto. apply sim_eqb; [apply sim_self|intros v].
  apply sim_eqb; [apply sim_lift, rel_eq|intros a]. apply sim_eqb; [apply sim_self|intros w].
  apply sim_eqb; [apply sim_lift, rel_eq|intros b]. apply sim_eqb; [apply sim_hwrap, T_pair|intros _].
  go.
  - apply sim_hwrap. apply T_pair.
  - apply sim_hwrap.
    match goal with |- T (?x0 ++ ?s ++ ?x1 ++ ?s ++ ?x2 ++ _ ++ ?y0 ++ ?s ++ ?y1 ++ ?s ++ ?y2 ++ nl) _ =>
      pose proof (T_pair (x0 ++ s ++ x1 ++ s ++ x2) (y0 ++ s ++ y1 ++ s ++ y2)) as K; rewrite <- !app_assoc in K; exact K end.
Qed.
Lemma sim_vars : sim eq (writeVariablesHeaderSection o1) (writeVariablesHeaderSection o2).
Proof. unfold writeVariablesHeaderSection. go. Qed.
Lemma sim_aux : sim eq (writeAuxVariablesHeaderSection o1) (writeAuxVariablesHeaderSection o2).
Proof. unfold writeAuxVariablesHeaderSection. go. Qed.
Lemma sim_aux2160 : sim eq (writeAuxVariablesHeaderSection_2160 o1) (writeAuxVariablesHeaderSection_2160 o2).
Proof. unfold writeAuxVariablesHeaderSection_2160. go. Qed.
Lemma sim_comments : sim eq (writeComments o1) (writeComments o2).
Proof. unfold writeComments. go. Qed.
Lemma sim_fix : sim eq (fixHeaderLength o1) (fixHeaderLength o2).
Proof.
  intros s0 s1 Hs. pose proof Hs as (E & Hh & Hg). destruct (T_ends _ _ Hh) as [N0 N1].
  assert (El : length (lines (w_head s0)) = length (lines (w_head s1))).
  { rewrite !ends_nl_count by auto. now apply T_count. }
  unfold fixHeaderLength. rewrite E, <- El. destruct (fmt_d (attr (w_na s0) kFFI)) as [ffi|]; [|now split].
  unfold annotateLine. rewrite A1, A2. destruct (T_first _ _ Hh) as [[-> ->]|(u & v & u' & v' & -> & -> & Q0 & Q1 & Hv)].
  - simpl. auto.
  - rewrite !Annot.lines_nl by auto. rewrite !lines_concat. split; [|reflexivity]. split; [reflexivity|]. cbn [snd w_head w_file].
    split; [|exact Hg]. apply T_app; [apply T_pair|exact Hv].
Qed.
Lemma sim_flush : sim eq (flushHeader (num:=num)) flushHeader.
Proof. intros s0 s1 (E & Hh & Hg). simpl. split; [|reflexivity]. split; [exact E|]. split; [exact Hh|]. now apply T_app. Qed.
Ltac head := repeat first [ apply sim_eqb; [solve [apply sim_common | apply sim_vars | apply sim_aux | apply sim_aux2160 | apply sim_comments | apply sim_fix | apply sim_reverse]|intros _]
  | apply sim_flush | apply sim_eqb; [solve [go]|intros _] ].
Lemma sim_header_1001 : sim eq (writeHeader_1001 o1) (writeHeader_1001 o2).
Proof.
  unfold writeHeader_1001. rewrite !no_ann by auto. head. apply sim_eqb; [|intros _; head].
  do 3 step. eapply (sim_bind T); [|intros; now apply sim_hwrite]. apply sim_lift. destruct (Nat.eqb _ _); [|reflexivity].
  destruct (mapR fmt_s _) as [ss|]; simpl; [|reflexivity]. apply T_line.
Qed.
Lemma sim_header_1010 : sim eq (writeHeader_1010 o1) (writeHeader_1010 o2).
Proof. unfold writeHeader_1010. head. Qed.
Lemma sim_header_1020 : sim eq (writeHeader_1020 o1) (writeHeader_1020 o2).
Proof. unfold writeHeader_1020. head. Qed.
Lemma sim_header_2110 : sim eq (writeHeader_2110 o1) (writeHeader_2110 o2).
Proof. unfold writeHeader_2110. head. Qed.
Lemma sim_header_2310 : sim eq (writeHeader_2310 o1) (writeHeader_2310 o2).
Proof. unfold writeHeader_2310. head. Qed.
(** Lines of axis values. *)
Lemma T_lstrip items : Forall solid items -> exists r, (items = [] /\ r = [] \/ r <> []) /\
  (items = [] -> lstrip (join d1 items ++ nl) = [] /\ lstrip (join d2 items ++ nl) = []) /\
  (items <> [] -> lstrip (join d1 items ++ nl) = join d1 r ++ nl /\ lstrip (join d2 items ++ nl) = join d2 r ++ nl).
Proof.
  intros Hi. destruct items as [|x l].
  - exists []. repeat split; auto. congruence. congruence.
  - exists (lstrip x :: l). split; [right; congruence|]. split; [congruence|]. intros _.
    inversion Hi as [|? ? (t & c & -> & Hc & _)]; subst.
    assert (K : forall y, lstrip ((t ++ [c]) ++ y) = lstrip (t ++ [c]) ++ y).
    { intros y. unfold lstrip. clear - Hc. induction t as [|e t IH]; cbn [app lstrip_by].
      - now rewrite Hc.
      - destruct (is_space e); [exact IH|reflexivity]. }
    destruct l as [|z l].
    + cbn [join]. rewrite !K. auto.
    + rewrite !(join_cons _ _ (z :: l)) by congruence. rewrite <- !(app_assoc (t ++ [c])), !K, <- !app_assoc. auto.
Qed.
Definition TX (a b : str) : Prop := T (lstrip a) (lstrip b).
Lemma rel_x_line nxdef X i : rel TX (x_line o1 nxdef X i) (x_line o2 nxdef X i).
Proof.
  unfold x_line. destruct (index nxdef i) as [nv|]; simpl; [|reflexivity]. destruct (as_int nv) as [n|]; simpl; [|reflexivity].
  destruct (index X (i + 1)) as [xi|]; simpl; [|reflexivity]. destruct (as_list xi) as [xs|]; simpl; [|reflexivity].
  destruct (Nat.eqb _ _); [|reflexivity].
  assert (K : rel (Forall2 TI) (mapR (fmt_item o1) (slice_to xs n)) (mapR (fmt_item o2) (slice_to xs n))) by (apply rel_mapR, rel_item).
  destruct (mapR (fmt_item o1) _), (mapR (fmt_item o2) _); simpl in *; try contradiction; auto.
  apply TI_concat in K as (items & Hi & -> & ->). rewrite !rstrip_items by auto. unfold TX.
  destruct (T_lstrip items Hi) as (r & Hr & K0 & K1). destruct items as [|x items].
  - destruct K0 as [-> ->]; [auto|]. apply T_nil.
  - destruct K1 as [-> ->]; [congruence|]. apply T_row.
Qed.
Lemma Forall2_rev {A B} (R : A -> B -> Prop) l l' : Forall2 R l l' -> Forall2 R (rev l) (rev l').
Proof. induction 1; simpl; [constructor|]. apply Forall2_app; auto. Qed.
Lemma sim_header_2010 : sim eq (writeHeader_2010 o1) (writeHeader_2010 o2).
Proof.
  unfold writeHeader_2010. head. apply sim_eqb; [|intros _; head].
  apply sim_eqb; [apply sim_self_int|intros niv]. apply sim_eqb; [apply sim_self|intros nxdef]. apply sim_eqb; [apply sim_self|intros X].
  eapply (sim_bind (Forall2 TX)); [apply sim_lift, rel_mapR; intros; apply rel_x_line|]. intros xl xl' Hx.
  eapply sim_forW2; [apply Forall2_rev, Hx|]. intros a b Hab. now apply sim_hwrap.
Qed.
Lemma T_block ss : ss <> [] -> T (join nl ss ++ nl) (join nl ss ++ nl).
Proof.
  induction ss as [|x ss IH]; [congruence|]. intros _. destruct ss as [|y ss]; [apply T_line|].
  rewrite join_cons by congruence. rewrite <- !app_assoc. rewrite app_assoc. apply T_app; [apply T_line|]. apply IH. congruence.
Qed.
Lemma sim_header_2160 : sim eq (writeHeader_2160 o1) (writeHeader_2160 o2).
Proof.
  unfold writeHeader_2160. apply sim_eqb; [|intros _; head].
  apply sim_eqb; [apply sim_self|intros v]. destruct v as [| | | |[|v l]]; try (apply sim_ret; reflexivity); try (apply sim_lift; reflexivity).
  eapply (sim_bind (fun a b => a = b /\ a <> [])).
  - apply sim_lift. destruct (mapR _ (v :: l)) as [ss|] eqn:E; simpl; [|reflexivity]. split; [reflexivity|].
    destruct ss; [|congruence]. apply mapR_length in E. discriminate.
  - intros ss ? [<- Hs] s0 s1 (E & Hh & Hg). cbn [snd fst bindW fwrite w_file w_head w_na]. split; [|reflexivity]. split; [exact E|]. split; [exact Hh|].
    cbn [w_file]. rewrite <- !app_assoc. apply T_app; auto. now apply T_block.
Qed.
Lemma sim_header c : sim eq (writeHeader o1 c) (writeHeader o2 c).
Proof.
  destruct c; simpl; auto using sim_header_1001, sim_header_1010, sim_header_1020, sim_header_2010, sim_header_2110, sim_header_2160, sim_header_2310.
Qed.

(** ** Data *)
Ltac data := repeat first
  [ step | (eapply (sim_bind TI); [apply sim_lift; apply rel_cat|intros ? ? ?])
  | apply sim_forW; intros ?
  | apply sim_data_line; apply TI_line; solve [assumption | apply TI_app; assumption]
  | apply sim_eqb; [|intros _] ].
Lemma sim_x_aux x m : sim eq (write_x_aux o1 x m) (write_x_aux o2 x m).
Proof. unfold write_x_aux. data. Qed.
Lemma sim_inner X m : sim eq (write_inner_2110 o1 X m) (write_inner_2110 o2 X m).
Proof. unfold write_inner_2110. data. Qed.
Lemma rel_writeLines dims : forall v, rel (Forall2 T) (writeLines o1 v dims) (writeLines o2 v dims).
Proof.
  induction dims as [|d dims IH]; intros v; [reflexivity|]. destruct dims as [|d' dims].
  - cbn [writeLines]. pose proof (rel_cat (range d) (fun i => index v i)) as K.
    destruct (cat_items o1 _ _), (cat_items o2 _ _); simpl in *; try contradiction; auto. constructor; [now apply TI_line|constructor].
  - change (rel (Forall2 T) (bindR (mapR (fun i => bindR (index v i) (fun sub => writeLines o1 sub (d' :: dims))) (range d)) (fun lls => Ok (concat lls)))
             (bindR (mapR (fun i => bindR (index v i) (fun sub => writeLines o2 sub (d' :: dims))) (range d)) (fun lls => Ok (concat lls)))).
    assert (K : rel (Forall2 (Forall2 T)) (mapR (fun i => bindR (index v i) (fun sub => writeLines o1 sub (d' :: dims))) (range d))
       (mapR (fun i => bindR (index v i) (fun sub => writeLines o2 sub (d' :: dims))) (range d))).
    { apply rel_mapR. intros i. destruct (index v i); [apply IH|reflexivity]. }
    destruct (mapR _ (range d)), (mapR _ (range d)); simpl in *; try contradiction; auto.
    clear - K. induction K; [constructor|]. cbn [concat]. now apply Forall2_app.
Qed.
Lemma sim_data_2010 : sim eq (writeData_2010 o1) (writeData_2010 o2).
Proof.
  unfold writeData_2010. data; try apply sim_x_aux.
  eapply (sim_bind (Forall2 T)); [apply sim_lift, rel_writeLines|]. intros l l' Hl.
  eapply sim_forW2; [exact Hl|]. intros la lb Hab. unfold wrapLine, annotateLine. rewrite A1, A2. now apply sim_fwrite.
Qed.
Lemma sim_data c : sim eq (writeData o1 c) (writeData o2 c).
Proof.
  destruct c; simpl; try apply sim_data_2010.
  - unfold writeData_1001. data.
  - unfold writeData_1010. data; apply sim_x_aux.
  - unfold writeData_1020. data; apply sim_x_aux.
  - unfold writeData_2110. data; first [apply sim_x_aux|apply sim_inner].
  - unfold writeData_2160. data; try apply sim_inner.
    + apply sim_data_line, T_line.
    + apply sim_data_line. unfold rstrip_sc. rewrite !rstrip_by_app by now apply sc_delim. apply T_line.
  - unfold writeData_2310. data; try apply sim_x_aux.
    apply sim_eqb; [|intros nv; data]. destruct (range _); [apply sim_ret; reflexivity|apply sim_self_int].
Qed.
Lemma sim_body c nh : sim eq (write_body o1 c nh) (write_body o2 c nh).
Proof.
  unfold write_body. apply sim_eqb; [|intros _].
  - intros s0 s1 (E & Hh & Hg). split; [|reflexivity]. split; [exact E|]. split; [exact T_nil|exact Hg].
  - apply sim_eqb; [|intros _; apply sim_data]. destruct nh; [apply sim_ret; reflexivity|apply sim_header].
Qed.
End Delim.
