(** Lockstep simulation of the plain and the annotated writer (property C21). *)
From Coq Require Import List NArith ZArith Bool Lia.
From Verif Require Import Py.Str Py.Res Py.Num Model.Dict Model.TextParser Model.CommonUtils
  Model.NAWrite Spec.AnnotSpec Proofs.StrLemmas Proofs.NumLemmas Proofs.TextLemmas Proofs.WriteFrame
  Proofs.WriteSim Proofs.HeaderLemmas.
Import ListNotations.

Lemma mapR_Forall {A B} (P : B -> Prop) (f : A -> Res B) l r :
  (forall x y, In x l -> f x = Ok y -> P y) -> mapR f l = Ok r -> Forall P r.
Proof.
  revert r. induction l as [|x l IH]; simpl; intros r Hf.
  - intros [= <-]. constructor.
  - destruct (f x) eqn:Ex; simpl; [|discriminate]. destruct (mapR f l); simpl; [|discriminate].
    intros [= <-]. constructor; eauto.
Qed.

(** ** Texts without line breaks *)
Lemma ub_app a b : unbroken (a ++ b) <-> unbroken a /\ unbroken b.
Proof. unfold unbroken. setoid_rewrite in_app_iff. split; [|firstorder]. intros Hab. split; auto. Qed.
Lemma ub_nil : unbroken []. Proof. intros c []. Qed.
Lemma ub_sp : unbroken (lit " "). Proof. intros c [<-|[]]. reflexivity. Qed.
Lemma ub_intchr s : forallb is_intchr s = true -> unbroken s.
Proof.
  rewrite forallb_forall. intros Hs c Hi. specialize (Hs _ Hi).
  unfold is_intchr in Hs. apply orb_true_iff in Hs as [Hs|Hs].
  - apply is_digit_range in Hs.
    assert (E : (c = 48 \/ c = 49 \/ c = 50 \/ c = 51 \/ c = 52 \/ c = 53 \/ c = 54 \/ c = 55 \/ c = 56 \/ c = 57)%N) by lia.
    repeat (destruct E as [->|E]; [reflexivity|]). now subst.
  - apply N.eqb_eq in Hs. now subst.
Qed.
Lemma ub_dec z : unbroken (dec_of_Z z). Proof. apply ub_intchr, dec_of_Z_chars. Qed.
Lemma ub_concat l : Forall unbroken l -> unbroken (concat l).
Proof. induction 1; simpl; [apply ub_nil|]. now apply ub_app. Qed.
Lemma ub_join sep l : unbroken sep -> Forall unbroken l -> unbroken (join sep l).
Proof.
  intros Hs. induction 1 as [|x l Hx Hl IH]; [apply ub_nil|].
  destruct l as [|y l]; auto. change (unbroken (x ++ sep ++ join sep (y :: l))).
  rewrite !ub_app. auto.
Qed.
Lemma ub_lstrip s p : unbroken s -> unbroken (lstrip_by p s).
Proof.
  intros Hs. destruct (lstrip_by_decomp p s) as (a & _ & E & _). rewrite E in Hs.
  now apply ub_app in Hs.
Qed.
Lemma ub_rstrip s p : unbroken s -> unbroken (rstrip_by p s).
Proof.
  intros Hs. destruct (rstrip_by_decomp p s) as (b & _ & E & _). rewrite E in Hs.
  now apply ub_app in Hs.
Qed.
Lemma ub_removelast (s : str) : unbroken s -> unbroken (removelast s).
Proof.
  intros Hs. destruct s as [|x s]; auto.
  assert (E : x :: s <> []) by congruence. apply app_removelast_last with (d := 0%N) in E.
  rewrite E in Hs. now apply ub_app in Hs.
Qed.
Lemma ub_no_nl s : unbroken s -> mem_chr c_nl s = false.
Proof. intros Hs. apply mem_chr_false. intros Hi. specialize (Hs _ Hi). discriminate. Qed.

Lemma splitlines_unbroken s t : unbroken s -> splitlines (s ++ nl ++ t) = (s ++ nl) :: splitlines t.
Proof.
  induction s as [|c s IH]; intros Hs.
  - reflexivity.
  - assert (Hc : is_linebreak c = false) by (apply Hs; now left).
    assert (Hs' : unbroken s) by (intros x Hx; apply Hs; now right).
    cbn [app splitlines]. rewrite Hc. cbn [andb]. fold (s ++ nl ++ t). rewrite IH by auto. reflexivity.
Qed.
Lemma splitlines_lines ss : Forall unbroken ss ->
  splitlines (concat (map (fun s => s ++ nl) ss)) = map (fun s => s ++ nl) ss.
Proof.
  induction 1 as [|s ss Hs _ IH]; [reflexivity|]. cbn [map concat]. rewrite <- app_assoc.
  rewrite splitlines_unbroken by auto. now rewrite IH.
Qed.

Section Sim.
Context {num : Type} `{NumOps num}.
Variable o : opts num.
Local Notation W := (W num).
(** [cl]: the texts are clean, hence every piece is one line. *)
Variable cl : Prop.
Hypothesis Hitems : ann_complete o.
Hypothesis Hone : ann_one_line o.
Hypothesis Hub : cl -> unbroken_opts o.
Hypothesis Hvis : cl -> forall x, visible (o_fmt o x).
Local Notation o0 := (plain o).
Local Notation o1 := (annotated o).

Definition is_ann (x : str) : Prop := (exists a, ann_text o a /\ x = a ++ o_delim o) /\ ~ In c_nl x.
Definition one_line (y : str) : Prop := exists s, y = s ++ nl /\ unbroken s.
Definition piece (p : str * str) : Prop :=
  (is_ann (fst p) \/ ~ cl /\ fst p = []) /\ (cl -> one_line (snd p)).
Definition cat2 (q : str * str) : str := @fst str str q ++ @snd str str q.
Definition T (p a : str) : Prop := exists ps : list (str * str),
  p = concat (map (@snd str str) ps) /\ a = concat (map cat2 ps) /\ Forall piece ps.

Lemma T_nil : T [] []. Proof. exists []. auto. Qed.
Lemma T_app p a p' a' : T p a -> T p' a' -> T (p ++ p') (a ++ a').
Proof.
  intros (ps & -> & -> & Hp) (qs & -> & -> & Hq). exists (ps ++ qs).
  rewrite !map_app, !concat_app. repeat split; auto. now apply Forall_app.
Qed.
Lemma T_one x y : is_ann x -> (cl -> one_line y) -> T y (x ++ y).
Proof.
  intros Hx Hy. exists [(x, y)]. unfold cat2; cbn [map concat fst snd]; fold cat2. rewrite !app_nil_r.
  repeat split; auto. constructor; [|constructor]. split; auto.
Qed.
Lemma T_same y : ~ cl -> T y y.
Proof.
  intros Hc. exists [([], y)]. unfold cat2; cbn [map concat fst snd]; fold cat2. rewrite !app_nil_r.
  repeat split; auto. constructor; [|constructor]. split; [right; auto|tauto].
Qed.
Lemma piece_no_nl q : piece q -> mem_chr c_nl (fst q) = false.
Proof. intros [[[_ Hx]|[_ ->]] _]; [now apply mem_chr_false|reflexivity]. Qed.
Lemma T_count p a : T p a -> count_chr c_nl p = count_chr c_nl a.
Proof.
  intros (ps & -> & -> & Hp). induction Hp as [|q ps Hq _ IH]; [reflexivity|].
  apply piece_no_nl, count_chr_mem in Hq. cbn [map concat]. unfold cat2 at 1. rewrite !count_chr_app, IH, Hq. reflexivity.
Qed.

(** The first line can be taken off. *)
Lemma split_first (y : str) : mem_chr c_nl y = true -> exists u v, y = u ++ nl ++ v /\ mem_chr c_nl u = false.
Proof.
  induction y as [|c y IH]; [discriminate|]. rewrite mem_chr_cons.
  destruct (N.eqb_spec c_nl c) as [<-|Hn].
  - intros _. exists [], y. auto.
  - intros Hy. destruct (IH Hy) as (u & v & -> & Hu). exists (c :: u), v. split; auto.
    rewrite mem_chr_cons. destruct (N.eqb_spec c_nl c); [congruence|auto].
Qed.
Lemma T_first p a : T p a ->
  (mem_chr c_nl p = false /\ mem_chr c_nl a = false) \/
  exists u v u' v', p = u ++ nl ++ v /\ a = u' ++ nl ++ v' /\
    mem_chr c_nl u = false /\ mem_chr c_nl u' = false /\ T v v'.
Proof.
  intros (ps & -> & -> & Hp). induction Hp as [|[x y] ps Hq Hps IH]; [now left|].
  unfold cat2; cbn [map concat fst snd]; fold cat2. pose proof (piece_no_nl _ Hq) as Hx. cbn [fst] in Hx.
  destruct (mem_chr c_nl y) eqn:Ey.
  - right. destruct (split_first _ Ey) as (u & v & -> & Hu).
    exists u, (v ++ concat (map (@snd str str) ps)), (x ++ u), (v ++ concat (map cat2 ps)).
    repeat split.
    + now rewrite <- !app_assoc.
    + now rewrite <- !app_assoc.
    + auto.
    + now rewrite mem_chr_app, Hx, Hu.
    + destruct Hq as [Hq1 Hq2]. cbn [fst snd] in *.
      assert (Hv : v = [] \/ ~ cl).
      { destruct v as [|z v]; auto. right. intros Hc. destruct (Hq2 Hc) as (s & Es & Hs).
        apply ub_no_nl in Hs. revert Es Hs. clear.
        replace (u ++ nl ++ z :: v) with ((u ++ nl) ++ z :: v) by now rewrite <- app_assoc.
        destruct (@exists_last _ (z :: v)) as (v' & z' & Ev); [congruence|]. rewrite Ev.
        rewrite app_assoc. intros Es Hs. apply app_inj_tail in Es as [<- _].
        rewrite !mem_chr_app in Hs. change (mem_chr c_nl nl) with true in Hs.
        rewrite orb_true_r in Hs. discriminate. }
      assert (Tp : T (concat (map (@snd str str) ps)) (concat (map cat2 ps))) by (exists ps; auto).
      destruct Hv as [-> | Hn]; [exact Tp|]. apply T_app; auto. now apply T_same.
  - destruct IH as [[H1 H2] | (u & v & u' & v' & E1 & E2 & H1 & H2 & Ht)].
    + left. rewrite !mem_chr_app, Hx, Ey, H1, H2. auto.
    + right. exists (y ++ u), v, ((x ++ y) ++ u'), v'. rewrite E1, E2.
      rewrite !mem_chr_app, Hx, Ey, H1, H2. rewrite <- !app_assoc. auto.
Qed.
Lemma T_lines p a : T p a -> cl ->
  Forall2 (ann_line o) (lines p) (lines a).
Proof.
  intros (ps & -> & -> & Hp) Hc. induction Hp as [|[x y] ps [Hx Hy] _ IH]; [constructor|].
  cbn [fst snd] in Hx, Hy. unfold cat2; cbn [map concat fst snd]; fold cat2. destruct (Hy Hc) as (s & -> & Hs).
  destruct Hx as [[(a & Ha & ->) Hx]|[]]; [|contradiction].
  rewrite (lines_app (s ++ nl)) by apply ends_nl_nl.
  rewrite (lines_app ((a ++ o_delim o) ++ s ++ nl)).
  2:{ rewrite app_assoc. apply ends_nl_nl. }
  apply Forall2_app; [|exact IH].
  assert (E1 : lines (s ++ nl) = [s ++ nl]).
  { rewrite <- (app_nil_r nl) at 1. change (s ++ nl ++ []) with (s ++ c_nl :: []).
    now rewrite lines_cons_nonl by now apply ub_no_nl. }
  assert (E2 : lines ((a ++ o_delim o) ++ s ++ nl) = [(a ++ o_delim o) ++ s ++ nl]).
  { rewrite app_assoc. rewrite <- (app_nil_r nl) at 1.
    change (((a ++ o_delim o) ++ s) ++ nl ++ []) with (((a ++ o_delim o) ++ s) ++ c_nl :: []).
    rewrite lines_cons_nonl; [reflexivity|].
    rewrite mem_chr_app. apply ub_no_nl in Hs. rewrite Hs. apply mem_chr_false in Hx. now rewrite Hx. }
  rewrite E1, E2. constructor; [|constructor]. exists a. split; auto. now rewrite <- !app_assoc.
Qed.
Lemma T_with p a : T p a -> with_annotations o p a.
Proof.
  intros (ps & -> & -> & Hp). induction Hp as [|[x y] ps [Hx _] _ IH]; [constructor|].
  unfold cat2; cbn [map concat fst snd] in *; fold cat2. rewrite <- app_assoc.
  destruct Hx as [[(a & Ha & ->) _]|[_ ->]]; [apply wa_ann; auto; now apply wa_text|]. cbn [app]. now apply wa_text.
Qed.

(** ** Values *)
Variable c : cls.
Definition okv (v : pyv num) : Prop := cl -> unbroken_val v.
Definition oks (s : str) : Prop := cl -> unbroken s.
Definition okd (d : na num) : Prop := cl -> unbroken_dict d /\ one_line_items c d.

Lemma okd_attr d k : okd d -> okv (attr d k).
Proof.
  intros Hd Hc. destruct (Hd Hc) as [Hu _]. unfold attr. destruct (d k) eqn:E; [eapply Hu; eauto|].
  destruct k; simpl; constructor; auto.
Qed.
Lemma oks_app a b : oks a -> oks b -> oks (a ++ b).
Proof. intros Ha Hb Hc. apply ub_app. auto. Qed.
Lemma oks_fmt_s v s : okv v -> fmt_s v = Ok s -> oks s.
Proof.
  intros Hv E Hc. specialize (Hv Hc). destruct (Hub Hc) as (_ & _ & Hn).
  destruct v; simpl in E; try discriminate; injection E as <-.
  - intros x Hi. revert Hi. vm_compute. intuition subst; reflexivity.
  - apply ub_dec.
  - apply Hn.
  - now inversion Hv.
Qed.
Lemma oks_fmt_d (v : pyv num) s : fmt_d v = Ok s -> oks s.
Proof.
  intros E _. destruct v; simpl in E; try discriminate.
  - injection E as <-. apply ub_dec.
  - destruct (num_trunc x); [|discriminate]. injection E as <-. apply ub_dec.
Qed.
Lemma oks_delim : oks (o_delim o). Proof. intros Hc. apply (Hub Hc). Qed.
Lemma oks_fmt_item v s : fmt_item o v = Ok s -> oks s.
Proof.
  unfold fmt_item. intros E Hc. destruct (Hub Hc) as (Hd & Hf & _).
  destruct v; simpl in E; try discriminate; injection E as <-; apply ub_app; split; auto.
Qed.
Lemma oks_concat l : Forall oks l -> oks (concat l).
Proof. intros Hl Hc. apply ub_concat. eapply Forall_impl; [|exact Hl]. intros a Ha. now apply Ha. Qed.
Lemma oks_cat_items {A} (l : list A) f s : cat_items o l f = Ok s -> oks s.
Proof.
  unfold cat_items. destruct (mapR _ l) eqn:E; simpl; [|discriminate]. intros [= <-].
  apply oks_concat. eapply mapR_Forall; [|eauto]. intros x y _ Hy.
  cbv beta in Hy; destruct (f x); simpl in Hy; [|discriminate]. eapply oks_fmt_item; eauto.
Qed.
Lemma okv_as_list v l : okv v -> as_list v = Ok l -> Forall okv l.
Proof.
  intros Hv. unfold okv in *. destruct v; simpl; try discriminate; intros [= <-]; apply Forall_forall; intros x Hx Hc;
    specialize (Hv Hc); inversion Hv as [| | |? Hs|? Hl]; subst.
  - apply in_map_iff in Hx as (ch & <- & Hi). constructor. intros y [<-|[]]. auto.
  - rewrite Forall_forall in Hl. auto.
Qed.
Lemma okv_index v i w : okv v -> index v i = Ok w -> okv w.
Proof.
  intros Hv. unfold index. destruct (as_list v) as [l|] eqn:E; simpl; [|discriminate].
  apply okv_as_list in E; auto. unfold nth_res, of_opt.
  destruct (nth_error l i) eqn:En; [|discriminate]. intros [= <-].
  rewrite Forall_forall in E. eapply E, nth_error_In; eauto.
Qed.
Lemma okv_index2 v i j w : okv v -> index2 v i j = Ok w -> okv w.
Proof.
  intros Hv. unfold index2. destruct (index v i) eqn:E; simpl; [|discriminate].
  eauto using okv_index.
Qed.
Lemma oks_mapR_fmt_s l ss : Forall okv l -> mapR fmt_s l = Ok ss -> Forall oks ss.
Proof.
  intros Hl. apply mapR_Forall. intros x y Hx. rewrite Forall_forall in Hl.
  apply oks_fmt_s; auto.
Qed.
Definition okl (s : str) : Prop := cl -> one_line s.
Lemma okl_nl s : oks s -> okl (s ++ nl).
Proof. intros Hs Hc. exists s. auto. Qed.
Lemma okl_fmt_sep sep n l s : oks sep -> Forall okv l -> fmt_sep sep n l = Ok s -> okl s.
Proof.
  intros Hs Hl. unfold fmt_sep. destruct (Nat.eqb _ _); [|discriminate].
  destruct (mapR fmt_s l) eqn:E; simpl; [|discriminate]. intros [= <-].
  apply okl_nl. intros Hc. apply ub_join; auto. apply oks_mapR_fmt_s in E; auto.
  eapply Forall_impl; [|exact E]. intros x Hx. now apply Hx.
Qed.
Lemma okl_fmt_dx n l s : Forall okv l -> fmt_dx_1010 n l = Ok s -> okl s.
Proof.
  intros Hl. unfold fmt_dx_1010. destruct (Nat.eqb _ _); [|discriminate].
  destruct (mapR fmt_s l) eqn:E; simpl; [|discriminate]. intros [= <-].
  apply okl_nl. apply oks_concat. apply oks_mapR_fmt_s in E; auto. rewrite Forall_map.
  eapply Forall_impl; [|exact E]. intros x Hx. apply oks_app; auto. intros _. apply ub_sp.
Qed.
(** several lines *)
Definition oklines (t : str) : Prop := exists ss, t = concat (map (fun s => s ++ nl) ss) /\ Forall oks ss.
Lemma oklines_fmt n l s : Forall okv l -> fmt_lines n l = Ok s -> oklines s.
Proof.
  intros Hl. unfold fmt_lines. destruct (Nat.eqb _ _); [|discriminate].
  destruct (mapR fmt_s l) eqn:E; simpl; [|discriminate]. intros [= <-].
  eexists. split; [reflexivity|]. eapply oks_mapR_fmt_s; eauto.
Qed.
Lemma okl_fmt_lines1 n l s : Forall okv l -> (cl -> n = 1%Z) -> fmt_lines n l = Ok s -> okl s.
Proof.
  intros Hl Hn E Hc. rewrite (Hn Hc) in E. unfold fmt_lines in E.
  destruct l as [|v [|]]; try discriminate. cbn [length Z.to_nat Nat.eqb Pos.to_nat Pos.iter_op] in E.
  cbn [mapR] in E. destruct (fmt_s v) as [t|] eqn:Ev; [|discriminate]. injection E as <-.
  cbn [map concat]. rewrite app_nil_r. inversion Hl; subst. exists t. split; auto.
  eapply oks_fmt_s; eauto.
Qed.
Lemma oks_stripQuotes v s : okv v -> stripQuotes v = Ok s -> oks s.
Proof.
  intros Hv. unfold stripQuotes. destruct (fmt_s v) as [t|] eqn:E; simpl; [|discriminate].
  pose proof (oks_fmt_s _ _ Hv E) as Ht. unfold stripQuotes_str.
  destruct t as [|ch t]; [discriminate|].
  assert (H1 : oks (if is_quote ch then t else ch :: t)).
  { destruct (is_quote ch); auto. intros Hc x Hi. apply (Ht Hc). now right. }
  destruct (last_chr _); [|discriminate]. intros [= <-].
  match goal with |- oks (if ?b then _ else _) => destruct b end; auto.
  intros Hc. apply ub_removelast. now apply H1.
Qed.
Lemma Forall_slice_to {A} (P : A -> Prop) l n : Forall P l -> Forall P (slice_to l n).
Proof.
  intros Hl. unfold slice_to. set (k := Z.to_nat _). rewrite <- (firstn_skipn k l) in Hl.
  apply Forall_app in Hl. tauto.
Qed.
Lemma Forall_slice_from {A} (P : A -> Prop) l n : Forall P l -> Forall P (slice_from l n).
Proof.
  intros Hl. unfold slice_from. set (k := Z.to_nat _). rewrite <- (firstn_skipn k l) in Hl.
  apply Forall_app in Hl. tauto.
Qed.

(** Lines of axis values. *)
Lemma visible_lstrip r : visible r -> exists t, lstrip (r ++ nl) = t ++ nl /\ (unbroken r -> unbroken t).
Proof.
  intros (ch & Hi & Hsp & _). unfold lstrip.
  destruct (lstrip_by_decomp is_space r) as (a & Ha & E & Hh).
  exists (lstrip_by is_space r). split; [|apply ub_lstrip].
  rewrite E at 1. rewrite <- app_assoc. rewrite lstrip_by_app by auto.
  destruct (lstrip_by is_space r) as [|x t] eqn:Er.
  - exfalso. rewrite app_nil_r in E. subst a. rewrite forallb_forall in Ha. rewrite (Ha _ Hi) in Hsp. discriminate.
  - cbn [app]. rewrite lstrip_by_head; auto.
Qed.
Lemma okl_x_line nxdef X i l : (cl -> exists zs, nxdef = PList (map PInt zs) /\ Forall (fun z => 0 < z)%Z zs) ->
  x_line o nxdef X i = Ok l -> okl (lstrip l).
Proof.
  intros Hx E Hc. destruct (Hx Hc) as (zs & -> & Hz). clear Hx. revert E. unfold x_line.
  destruct (index (PList (map PInt zs)) i) as [nv|] eqn:En; simpl; [|discriminate].
  destruct (as_int nv) as [n|] eqn:Ei; simpl; [|discriminate].
  assert (Hn : (0 < n)%Z).
  { unfold index in En. simpl in En. unfold nth_res, of_opt in En.
    destruct (nth_error _ i) eqn:Ee; [|discriminate]. injection En as ->.
    apply nth_error_In, in_map_iff in Ee as (z & <- & Hi). injection Ei as ->.
    rewrite Forall_forall in Hz. auto. }
  destruct (index X _); simpl; [|discriminate].
  destruct (as_list _) as [xs|]; simpl; [|discriminate].
  destruct (Nat.eqb_spec (length (slice_to xs n)) (Z.to_nat n)) as [El|]; [|discriminate].
  destruct (mapR _ _) as [ss|] eqn:Em; simpl; [|discriminate]. intros [= <-].
  assert (Hs : unbroken (concat ss)).
  { apply oks_concat; auto. eapply mapR_Forall; [|eauto]. intros x y _. apply oks_fmt_item. }
  assert (Hv : visible (rstrip_sc (concat ss))).
  { destruct (slice_to xs n) as [|v vs]; [simpl in El; lia|].
    cbn [mapR] in Em. destruct (fmt_item o v) as [s1|] eqn:Ev; [|discriminate].
    cbn [bindR] in Em. destruct (mapR _ vs) as [ss2|]; [|discriminate]. injection Em as <-.
    assert (V1 : visible s1).
    { unfold fmt_item in Ev. destruct v; simpl in Ev; try discriminate; injection Ev as <-;
        [destruct (Hvis Hc (num_of_Z z)) as (ch & Hi & Hr) | destruct (Hvis Hc x) as (ch & Hi & Hr)];
        exists ch; split; auto; apply in_or_app; now left. }
    destruct V1 as (ch & Hi & Hsp & Hcm). exists ch. split; auto.
    unfold rstrip_sc. destruct (rstrip_by_decomp is_sp_comma (concat (s1 :: ss2))) as (b & Hb & E & _).
    assert (Hi' : In ch (concat (s1 :: ss2))) by (cbn [concat]; apply in_or_app; now left).
    rewrite E in Hi'. apply in_app_or in Hi' as [Hi'|Hi']; auto.
    exfalso. rewrite forallb_forall in Hb. specialize (Hb _ Hi'). unfold is_sp_comma in Hb.
    apply orb_true_iff in Hb as [Hb|Hb]; apply N.eqb_eq in Hb; subst ch; [discriminate|congruence]. }
  destruct (visible_lstrip _ Hv) as (t & -> & Ht). exists t. split; auto. apply Ht.
  now apply ub_rstrip.
Qed.

(** ** Lockstep *)
Definition S2 (s0 s1 : wst num) : Prop :=
  w_na s1 = w_na s0 /\ okd (w_na s0) /\ T (w_head s0) (w_head s1) /\ T (w_file s0) (w_file s1).
Definition rel {A} (R : A -> A -> Prop) (r0 r1 : Res A) : Prop :=
  match r0, r1 with Ok a, Ok b => R a b | Err e, Err e' => e = e' | _, _ => False end.
Definition sim {A} (R : A -> A -> Prop) (m0 m1 : W A) : Prop := forall s0 s1, S2 s0 s1 ->
  S2 (snd (m0 s0)) (snd (m1 s1)) /\ rel R (fst (m0 s0)) (fst (m1 s1)).
Definition tr : unit -> unit -> Prop := fun _ _ => True.
Definition same {A} (P : A -> Prop) : A -> A -> Prop := fun a b => b = a /\ P a.

Lemma sim_bind {A B} (R : A -> A -> Prop) (Q : B -> B -> Prop) m0 m1 f0 f1 :
  sim R m0 m1 -> (forall a b, R a b -> sim Q (f0 a) (f1 b)) -> sim Q (bindW m0 f0) (bindW m1 f1).
Proof.
  intros Hm Hf s0 s1 Hs. destruct (Hm _ _ Hs) as [Hs' Hr]. unfold bindW.
  destruct (m0 s0) as [[a|e] t0], (m1 s1) as [[b|e'] t1]; simpl in *; try contradiction.
  - apply Hf; auto.
  - auto.
Qed.
Lemma sim_same {A B} (P : A -> Prop) (Q : B -> B -> Prop) m0 m1 f0 f1 :
  sim (same P) m0 m1 -> (forall a, P a -> sim Q (f0 a) (f1 a)) -> sim Q (bindW m0 f0) (bindW m1 f1).
Proof. intros Hm Hf. eapply sim_bind; [exact Hm|]. intros a b [-> Ha]. auto. Qed.
Lemma sim_ret {A} (R : A -> A -> Prop) a b : R a b -> sim R (retW a) (retW b).
Proof. intros HR s0 s1 Hs. simpl. auto. Qed.
Lemma sim_lift {A} (R : A -> A -> Prop) r0 r1 : rel R r0 r1 -> sim R (liftW r0) (liftW r1).
Proof. intros HR s0 s1 Hs. simpl. auto. Qed.
Lemma sim_lifts {A} (P : A -> Prop) (r : Res A) : (forall a, r = Ok a -> P a) -> sim (same P) (liftW r) (liftW r).
Proof. intros HR. apply sim_lift. destruct r; simpl; [|auto]. split; auto. Qed.
Lemma sim_self k : sim (same (fun v => okv v /\ exists d, okd d /\ v = attr d k)) (self k) (self k).
Proof.
  intros s0 s1 Hs. split; [exact Hs|]. destruct Hs as (E & Hd & _). simpl. rewrite E.
  split; auto. split; [now apply okd_attr|]. eauto.
Qed.
Lemma sim_self_int k : sim (same (fun z => exists d, okd d /\ as_int (attr d k) = Ok z)) (self_int k) (self_int k).
Proof.
  eapply sim_same; [apply sim_self|]. intros v (_ & d & Hd & ->). apply sim_lifts. eauto.
Qed.
Lemma sim_self_list k : sim (same (Forall okv)) (self_list k) (self_list k).
Proof.
  eapply sim_same; [apply sim_self|]. intros v (Hv & _). apply sim_lifts. intros l. now apply okv_as_list.
Qed.
Lemma sim_hwrite t0 t1 : T t0 t1 -> sim tr (hwrite t0) (hwrite t1).
Proof.
  intros Ht s0 s1 (E & Hd & Hh & Hf). simpl. split; [|exact I]. split; [exact E|]. split; [exact Hd|]. split; auto; now apply T_app.
Qed.
Lemma sim_fwrite t0 t1 : T t0 t1 -> sim tr (fwrite t0) (fwrite t1).
Proof.
  intros Ht s0 s1 (E & Hd & Hh & Hf). simpl. split; [|exact I]. split; [exact E|]. split; [exact Hd|]. split; auto; now apply T_app.
Qed.
Lemma get_ann item n : In item ann_items -> exists x, getAnnotation o1 item n = Ok x /\ is_ann x.
Proof.
  intros Hi. destruct (Hitems _ Hi) as (a & Ea). unfold getAnnotation. simpl. rewrite Ea.
  eexists. split; [reflexivity|]. destruct Hone as [Hd Ha]. split.
  - exists (a ++ match n with None => [] | Some n => lit " " ++ dec_of_nat n end).
    rewrite app_assoc. split; auto. exists item, a. split; auto. split; auto.
    destruct n; [right; eauto|left; now rewrite app_nil_r].
  - rewrite !in_app_iff. intros [Hx|[Hx|Hx]]; [now apply (Ha _ _ Ea)| |now apply Hd].
    destruct n as [n|]; [|destruct Hx]. destruct Hx as [Hx|Hx]; [discriminate|].
    assert (Hm : mem_chr c_nl (dec_of_nat n) = false).
    { apply intchr_no_nl. rewrite dec_of_nat_Z. apply dec_of_Z_chars. }
    apply mem_chr_false in Hm. contradiction.
Qed.
Lemma sim_ann {B} (Q : B -> B -> Prop) item f0 f1 : In item ann_items ->
  (forall x, is_ann x -> sim Q (f0 []) (f1 x)) ->
  sim Q (bindW (liftW (getAnnotation o0 item None)) f0) (bindW (liftW (getAnnotation o1 item None)) f1).
Proof.
  intros Hi Hf. destruct (get_ann item None Hi) as (x & Ex & Hx).
  eapply (sim_bind (fun a b => a = [] /\ b = x)).
  - apply sim_lift. rewrite Ex. simpl. auto.
  - intros a b [-> ->]. auto.
Qed.
Lemma ann_line_rel item l n : In item ann_items -> okl l ->
  rel T (annotateLine o0 item l n) (annotateLine o1 item l n).
Proof.
  intros Hi Hl. destruct (get_ann item n Hi) as (x & Ex & Hx).
  unfold annotateLine. simpl o_annot. cbv iota. rewrite Ex. simpl. now apply T_one.
Qed.
Lemma sim_hwrap item l : In item ann_items -> okl l -> sim tr (hwrap o0 item l) (hwrap o1 item l).
Proof.
  intros Hi Hl. eapply (sim_bind T).
  - apply sim_lift. now apply ann_line_rel.
  - intros a b Hab. now apply sim_hwrite.
Qed.
Lemma plain_from item ls n : annotate_from o0 item ls n = Ok (concat ls).
Proof. revert n. induction ls as [|l ls IH]; intros n; [reflexivity|]. cbn [annotate_from]. rewrite IH. reflexivity. Qed.
Lemma ann_from item ls n : In item ann_items -> Forall okl ls ->
  exists s, annotate_from o1 item ls n = Ok s /\ T (concat ls) s.
Proof.
  intros Hi. revert n. induction ls as [|l ls IH]; intros n Hl.
  - exists []. split; auto. apply T_nil.
  - inversion Hl; subst. destruct (IH (Datatypes.S n)) as (s & Es & Hs); auto.
    pose proof (ann_line_rel item l (Some n) Hi) as Hr. cbn [annotate_from concat].
    change (annotateLine o0 item l (Some n)) with (Ok l) in Hr.
    destruct (annotateLine o1 item l (Some n)) as [a|]; [|now apply Hr in H2].
    rewrite Es. simpl. eexists. split; [reflexivity|]. apply T_app; auto. now apply Hr.
Qed.
Lemma not_cl_lines t : (~ cl) -> Forall okl (splitlines t).
Proof. intros Hn. apply Forall_forall. intros x _ Hc. contradiction. Qed.
Lemma sim_hwraps item t : In item ann_items -> oklines t -> sim tr (hwraps o0 item t) (hwraps o1 item t).
Proof.
  intros Hi (ss & -> & Hss). eapply (sim_bind T).
  - apply sim_lift. unfold annotateLines. rewrite plain_from, splitlines_concat.
    set (t := concat _) in *.
    assert (Hl : Forall okl (splitlines t)).
    { apply Forall_forall. intros x Hx Hc. unfold t in Hx. rewrite splitlines_lines in Hx.
      - apply in_map_iff in Hx as (s & <- & Hs). exists s. split; auto. rewrite Forall_forall in Hss. now apply Hss.
      - eapply Forall_impl; [|exact Hss]. intros a Ha. now apply Ha. }
    destruct (ann_from item (splitlines t) 1 Hi Hl) as (s & -> & Hs).
    rewrite splitlines_concat in Hs. exact Hs.
  - intros a b Hab. now apply sim_hwrite.
Qed.
Lemma one_line_upd k v (d : na num) : In k mutable_keys -> one_line_items c d -> one_line_items c (upd d k v).
Proof.
  assert (E : forall k', In k mutable_keys -> In k' [kNIV; kNXDEF; kIGN] -> attr (upd d k v) k' = attr d k').
  { intros k' Hk Hk'. unfold attr, upd. simpl in Hk, Hk'.
    destruct Hk as [<-|[<-|[<-|[]]]]; destruct Hk' as [<-|[<-|[<-|[]]]]; reflexivity. }
  intros Hk. destruct c; simpl; auto; rewrite E; simpl; auto.
Qed.
Lemma sim_reverse k : In k mutable_keys -> sim tr (reverse_in_place k) (reverse_in_place k).
Proof.
  intros Hk. eapply sim_same; [apply sim_self|]. intros v (Hv & _).
  eapply (sim_same okv).
  - apply sim_lifts. intros a. destruct v; simpl; try discriminate. intros [= <-] Hc.
    specialize (Hv Hc). inversion Hv; subst. constructor. now apply Forall_rev.
  - intros v' Hv' s0 s1 (E & Hd & Hh & Hf). simpl. split; [|exact I]. split; [simpl; now rewrite E|].
    split; [|split; [exact Hh|exact Hf]]. intros Hc. destruct (Hd Hc) as [Hu Hi]. split.
    + intros k' w E1. simpl in E1. unfold upd in E1.
      destruct (key_beq k k'); [injection E1 as <-; auto|eauto].
    + now apply one_line_upd.
Qed.
Lemma sim_forW {A} (l : list A) f0 f1 : (forall a, In a l -> sim tr (f0 a) (f1 a)) -> sim tr (forW l f0) (forW l f1).
Proof.
  induction l as [|x l IH]; simpl; intros Hf; [apply sim_ret; exact I|].
  eapply sim_bind; [apply Hf; auto|]. intros _ _ _. apply IH. auto.
Qed.
Lemma sim_data_line t : oks t -> sim tr (write_data_line o0 t) (write_data_line o1 t).
Proof.
  intros Ht. eapply (sim_bind T).
  - apply sim_lift. apply ann_line_rel; [simpl; tauto|]. apply okl_nl. intros Hc. apply ub_rstrip. now apply Ht.
  - intros a b Hab. now apply sim_fwrite.
Qed.

(** ** Sections of the header *)
Ltac ores := intros ?s ?E; solve
  [ eapply oks_fmt_d; eauto | eapply oks_stripQuotes; eauto | eapply oks_fmt_s; eauto
  | eapply okl_fmt_sep; [| |eauto]; auto using oks_delim, Forall_rev, Forall_slice_to, Forall_slice_from
  | eapply okl_fmt_sep; [| |eauto]; auto; intros _; apply ub_nil
  | eapply oklines_fmt; [|eauto]; auto using Forall_rev, Forall_slice_from
  | eapply okl_fmt_dx; [|eauto]; auto
  | eapply oks_cat_items; eauto ].
Lemma oks_bind_fmt_d (r : Res (pyv num)) s : bindR r fmt_d = Ok s -> oks s.
Proof. destruct r; simpl; [|discriminate]. apply oks_fmt_d. Qed.
Lemma oks_bind_fmt_s v i j s : okv v -> bindR (index2 v i j) fmt_s = Ok s -> oks s.
Proof. intros Hv. destruct (index2 v i j) eqn:E; simpl; [|discriminate]. apply oks_fmt_s. eapply okv_index2; eauto. Qed.
Lemma oks_sp : oks (lit " "). Proof. intros _. apply ub_sp. Qed.
Lemma okl_app a b : oks a -> okl b -> okl (a ++ b).
Proof. intros Ha Hb Hc. destruct (Hb Hc) as (s & -> & Hs). exists (a ++ s). rewrite app_assoc. split; auto. apply ub_app. auto. Qed.
Lemma okl_just_nl : okl nl. Proof. intros _. exists []. split; auto. apply ub_nil. Qed.
Ltac item := solve [repeat first [left; reflexivity | right]].
Ltac okl_tac := repeat first [assumption | apply okl_app | apply okl_just_nl | apply oks_app | apply oks_sp | apply oks_delim].

Lemma sim_str {B} (P : str -> Prop) (Q : B -> B -> Prop) (r : Res str) f0 f1 :
  (forall s, r = Ok s -> P s) -> (forall a, P a -> sim Q (f0 a) (f1 a)) ->
  sim Q (bindW (liftW r) f0) (bindW (liftW r) f1).
Proof. intros H1 H2. eapply sim_same; [apply sim_lifts; exact H1|]. auto. Qed.
Lemma sim_selfb {B} (Q : B -> B -> Prop) k f0 f1 : (forall v, okv v -> sim Q (f0 v) (f1 v)) ->
  sim Q (bindW (self k) f0) (bindW (self k) f1).
Proof. intros Hf. eapply sim_same; [apply sim_self|]. intros v [Hv _]. auto. Qed.
Lemma sim_intb {B} (Q : B -> B -> Prop) k f0 f1 : (forall v, sim Q (f0 v) (f1 v)) ->
  sim Q (bindW (self_int k) f0) (bindW (self_int k) f1).
Proof. intros Hf. eapply sim_same; [apply sim_self_int|]. auto. Qed.
Lemma sim_listb {B} (Q : B -> B -> Prop) k f0 f1 : (forall l, Forall okv l -> sim Q (f0 l) (f1 l)) ->
  sim Q (bindW (self_list k) f0) (bindW (self_list k) f1).
Proof. intros Hf. eapply sim_same; [apply sim_self_list|]. auto. Qed.
Lemma sim_seq (m0 m1 f0 f1 : W unit) : sim tr m0 m1 -> sim tr f0 f1 ->
  sim tr (bindW m0 (fun _ => f0)) (bindW m1 (fun _ => f1)).
Proof. intros Hm Hf. eapply sim_bind; [exact Hm|]. auto. Qed.

Ltac lift_tac := first
  [ apply (sim_str oks); [ores|intros]
  | apply (sim_str oks); [intros ? ?; eapply oks_bind_fmt_d; eassumption|intros]
  | apply (sim_str oklines); [ores|intros]
  | apply (sim_str okl); [ores|intros] ].
Ltac sim_tac := repeat first
  [ apply sim_selfb; intros | apply sim_intb; intros | apply sim_listb; intros
  | apply sim_ann; [item|intros]
  | lift_tac
  | apply sim_seq
  | apply sim_hwrap; [item|okl_tac]
  | apply sim_hwraps; [item|assumption]
  | (apply sim_hwrite; first [apply T_one; [assumption|]; okl_tac])
  | (apply sim_ret; exact I)
  | match goal with |- sim _ (if ?b then _ else _) _ => destruct b end ].

Local Opaque self liftW bindW retW hwrap hwraps hwrite fwrite self_int self_list reverse_in_place
  fmt_d fmt_s stripQuotes getAnnotation fmt_sep fmt_lines fmt_dx_1010 cat_items annotateLine bindR.

Lemma sim_common : sim tr (writeCommonHeader o0) (writeCommonHeader o1).
Proof. unfold writeCommonHeader. simpl o_delim. sim_tac. Qed.
Lemma sim_vars : sim tr (writeVariablesHeaderSection o0) (writeVariablesHeaderSection o1).
Proof. unfold writeVariablesHeaderSection. simpl o_delim. sim_tac. Qed.
Lemma sim_aux : sim tr (writeAuxVariablesHeaderSection o0) (writeAuxVariablesHeaderSection o1).
Proof. unfold writeAuxVariablesHeaderSection. simpl o_delim. sim_tac. Qed.
Lemma sim_aux2160 : sim tr (writeAuxVariablesHeaderSection_2160 o0) (writeAuxVariablesHeaderSection_2160 o1).
Proof. unfold writeAuxVariablesHeaderSection_2160. simpl o_delim. sim_tac. Qed.
Lemma sim_comments : sim tr (writeComments o0) (writeComments o1).
Proof. unfold writeComments. simpl o_delim. sim_tac. Qed.
Local Transparent annotateLine bindR.

(** The end of the header: both buffers consist of whole lines. *)
Lemma lines_nl u v : mem_chr c_nl u = false -> lines (u ++ nl ++ v) = (u ++ nl) :: lines v.
Proof. intros Hu. change (u ++ nl ++ v) with (u ++ c_nl :: v). now rewrite lines_cons_nonl. Qed.
Lemma sim_fix s0 s1 : S2 s0 s1 -> ends_nl (w_head s0) -> ends_nl (w_head s1) ->
  S2 (snd (fixHeaderLength o0 s0)) (snd (fixHeaderLength o1 s1)) /\
  rel tr (fst (fixHeaderLength o0 s0)) (fst (fixHeaderLength o1 s1)).
Proof.
  intros Hs N0 N1. pose proof Hs as (E & Hd & Hh & Hf).
  assert (El : length (lines (w_head s0)) = length (lines (w_head s1))).
  { rewrite !ends_nl_count by auto. now apply T_count. }
  unfold fixHeaderLength. rewrite E, <- El. simpl o_delim.
  destruct (fmt_d (attr (w_na s0) kFFI)) as [ffi|] eqn:Ef; [|now split].
  assert (Hl : okl (dec_of_nat (length (lines (w_head s0))) ++ o_delim o ++ ffi ++ nl)).
  { apply okl_app; [intros _; rewrite dec_of_nat_Z; apply ub_dec|].
    apply okl_app; [apply oks_delim|]. apply okl_nl. eapply oks_fmt_d; eauto. }
  assert (Hi : In (lit "NLHEAD_FFI") ann_items) by item.
  pose proof (ann_line_rel _ _ None Hi Hl) as Hr.
  destruct (annotateLine o0 (lit "NLHEAD_FFI") _ None) as [l0|],
           (annotateLine o1 (lit "NLHEAD_FFI") _ None) as [l1|]; simpl in Hr; try contradiction.
  2:{ subst. now split. }
  destruct (T_first _ _ Hh) as [[Q0 Q1]|(u & v & u' & v' & Eu & Eu' & Q0 & Q1 & Hv)].
  - assert (Z0 : forall s, ends_nl s -> mem_chr c_nl s = false -> s = []).
    { intros s [->|(t & ->)] Hm; auto. rewrite mem_chr_app in Hm. simpl in Hm. rewrite orb_true_r in Hm. discriminate. }
    rewrite (Z0 _ N0 Q0), (Z0 _ N1 Q1). simpl. auto.
  - rewrite Eu, Eu', !lines_nl by auto. rewrite !lines_concat. simpl. split; [|exact I].
    split; [reflexivity|]. split; [exact Hd|]. split; [|exact Hf]. simpl. now apply T_app.
Qed.
Lemma sim_finish : sim tr (finish o0) (finish o1).
Proof.
  intros s0 s1 Hs. destruct (sim_comments _ _ Hs) as [Hs' Hr]. unfold finish.
  Local Transparent bindW. unfold bindW.
  destruct (writeComments o0 s0) as [[[]|e] t0] eqn:E0, (writeComments o1 s1) as [[[]|e'] t1] eqn:E1;
    simpl in Hr; try contradiction; [|now split].
  pose proof (whole_comments _ _ _ E0) as N0. pose proof (whole_comments _ _ _ E1) as N1.
  simpl in Hs'. destruct (sim_fix _ _ Hs' N0 N1) as [Hs2 Hr2].
  destruct (fixHeaderLength o0 t0) as [[[]|e] q0], (fixHeaderLength o1 t1) as [[[]|e'] q1];
    simpl in Hr2; try contradiction; [|now split].
  destruct Hs2 as (Q1 & Q2 & Q3 & Q4). simpl in *. split; [|exact I].
  split; [exact Q1|]. split; [exact Q2|]. split; [exact Q3|]. now apply T_app.
Qed.
Local Opaque bindW.

(** ** Headers *)
Lemma sim_rev_bind k (f0 f1 : W unit) : In k mutable_keys -> sim tr f0 f1 ->
  sim tr (bindW (reverse_in_place k) (fun _ => f0)) (bindW (reverse_in_place k) (fun _ => f1)).
Proof. intros Hk Hf. apply sim_seq; auto. now apply sim_reverse. Qed.
Ltac head_tac := repeat first
  [ exact sim_finish | apply sim_common | apply sim_vars | apply sim_aux | apply sim_aux2160
  | apply sim_rev_bind; [item|] | apply sim_seq ].

Lemma T_xname x ss : is_ann x -> Forall oks ss ->
  T (concat (map (fun s => [] ++ s ++ nl) ss)) (concat (map (fun s => x ++ s ++ nl) ss)).
Proof.
  intros Hx. induction 1 as [|s ss Hs _ IH]; [apply T_nil|]. cbn [map concat].
  apply T_app; auto. apply T_one; auto. now apply okl_nl.
Qed.
Lemma sim_header_1001 : sim tr (writeHeader_1001 o0) (writeHeader_1001 o1).
Proof.
  unfold writeHeader_1001. head_tac.
  - apply sim_ann; [item|intros x Hx]. apply sim_intb; intros z. apply sim_listb; intros l Hl.
    eapply (sim_bind T); [|intros; now apply sim_hwrite].
    apply sim_lift. destruct (Nat.eqb _ _); [|reflexivity].
    destruct (mapR fmt_s l) as [ss|] eqn:E; simpl; [|auto]. apply T_one; auto.
    apply okl_nl, oks_concat. eapply oks_mapR_fmt_s; eauto.
  - apply sim_ann; [item|intros x Hx]. apply sim_intb; intros z. apply sim_listb; intros l Hl.
    eapply (sim_bind T); [|intros; now apply sim_hwrite].
    apply sim_lift. destruct (Nat.eqb _ _); [|reflexivity].
    destruct (mapR fmt_s l) as [ss|] eqn:E; [|reflexivity]. cbn [bindR rel].
    apply T_xname; auto. eapply oks_mapR_fmt_s; eauto.
Qed.
Lemma sim_header_1010 : sim tr (writeHeader_1010 o0) (writeHeader_1010 o1).
Proof. unfold writeHeader_1010. head_tac; sim_tac. Qed.
Lemma sim_header_1020 : c = C1020 -> sim tr (writeHeader_1020 o0) (writeHeader_1020 o1).
Proof.
  intros Hc. unfold writeHeader_1020. head_tac; try solve [sim_tac].
  eapply sim_same; [apply sim_self_int|]. intros z (d & Hd & Ez). apply sim_listb; intros l Hl.
  apply (sim_str okl); [|intros; apply sim_hwrap; [item|auto]].
  intros s. apply okl_fmt_lines1; auto. intros Hcl. destruct (Hd Hcl) as [_ Hi]. rewrite Hc in Hi.
  simpl in Hi. rewrite Hi in Ez. now injection Ez.
Qed.
Lemma sim_header_2110 : sim tr (writeHeader_2110 o0) (writeHeader_2110 o1).
Proof. unfold writeHeader_2110. head_tac; sim_tac. Qed.
Lemma sim_header_2310 : sim tr (writeHeader_2310 o0) (writeHeader_2310 o1).
Proof.
  unfold writeHeader_2310. head_tac; try solve [sim_tac].
  apply sim_selfb; intros v Hv. eapply (sim_same okv); [apply sim_lifts; intros a; now apply okv_index|].
  intros a Ha. sim_tac.
Qed.
Lemma sim_header_2010 : c = C2010 \/ c = C3010 \/ c = C4010 -> sim tr (writeHeader_2010 o0) (writeHeader_2010 o1).
Proof.
  intros Hc. unfold writeHeader_2010. head_tac; try solve [sim_tac].
  apply sim_intb; intros z. eapply sim_same; [apply sim_self|]. intros nxdef (_ & d & Hd & En).
  apply sim_selfb; intros X HX. eapply (sim_same (Forall (fun l => okl (lstrip l)))).
  - apply (sim_lifts _ (mapR (x_line o nxdef X) (range (z - 1)))). intros l. apply mapR_Forall. intros i y _.
    apply okl_x_line. intros Hcl. destruct (Hd Hcl) as [_ Hi]. subst nxdef.
    destruct Hc as [Hc|[Hc|Hc]]; rewrite Hc in Hi; exact Hi.
  - intros xl Hxl. apply sim_forW. intros l Hl. apply sim_hwrap; [item|].
    rewrite Forall_forall in Hxl. apply Hxl. now apply in_rev.
Qed.
Lemma sim_header_2160 : c = C2160 -> sim tr (writeHeader_2160 o0) (writeHeader_2160 o1).
Proof.
  intros Hc. unfold writeHeader_2160. head_tac; try solve [sim_tac].
  eapply sim_same; [apply sim_self|]. intros v (_ & d & Hd & Ev).
  assert (Hn : cl -> v = PNone \/ v = PList []).
  { intros Hcl. destruct (Hd Hcl) as [_ Hi]. rewrite Hc in Hi. simpl in Hi. rewrite Ev. exact Hi. }
  clear Ev. destruct v as [| | | |[|v l]]; try (apply sim_ret; exact I); try (apply sim_lift; reflexivity).
  assert (Hncl : ~ cl) by (intros Hcl; destruct (Hn Hcl); discriminate).
  eapply (sim_same (fun _ => True)); [now apply sim_lifts|]. intros ss _. apply sim_seq; apply sim_fwrite; now apply T_same.
Qed.
Lemma sim_header : sim tr (writeHeader o0 c) (writeHeader o1 c).
Proof.
  assert (K : forall c', c = c' -> sim tr (writeHeader o0 c') (writeHeader o1 c')); [|auto].
  intros c' E. destruct c'; simpl; auto using sim_header_1001, sim_header_1010, sim_header_1020,
    sim_header_2010, sim_header_2110, sim_header_2160, sim_header_2310.
Qed.

(** ** Data *)
Local Opaque write_data_line.
Lemma sim_cat {A B} (Q : B -> B -> Prop) (l : list A) f g0 g1 : (forall a, oks a -> sim Q (g0 a) (g1 a)) ->
  sim Q (bindW (liftW (cat_items o0 l f)) g0) (bindW (liftW (cat_items o1 l f)) g1).
Proof.
  Local Transparent cat_items. intros Hg.
  change (cat_items o0 l f) with (cat_items o l f). change (cat_items o1 l f) with (cat_items o l f).
  apply (sim_str oks); auto. intros s. apply oks_cat_items.
Qed.
Local Opaque cat_items.
Ltac data_tac := repeat first
  [ apply sim_selfb; intros | apply sim_intb; intros | apply sim_listb; intros
  | apply sim_cat; intros
  | apply (sim_str oks); [intros ? ?; eapply oks_bind_fmt_s; eassumption|intros]
  | apply sim_forW; intros
  | apply sim_seq
  | apply sim_data_line; okl_tac
  | (apply sim_ret; exact I)
  | (eapply (sim_same (fun _ => True)); [apply sim_lifts; auto|intros]) ].

Lemma sim_x_aux x m : sim tr (write_x_aux o0 x m) (write_x_aux o1 x m).
Proof. unfold write_x_aux. data_tac. Qed.
Lemma sim_inner X m : sim tr (write_inner_2110 o0 X m) (write_inner_2110 o1 X m).
Proof. unfold write_inner_2110. data_tac. Qed.
Local Opaque write_x_aux write_inner_2110.
Lemma okl_writeLines v dims ls : writeLines o v dims = Ok ls -> Forall okl ls.
Proof.
  revert v ls. induction dims as [|d dims IH]; intros v ls; [discriminate|].
  destruct dims as [|d2 dims].
  - cbn [writeLines]. destruct (cat_items o _ _) as [s|] eqn:E; cbn [bindR]; [|discriminate].
    intros [= <-]. constructor; [|constructor]. apply okl_nl. intros Hc. apply ub_rstrip.
    eapply oks_cat_items; eauto.
  - change (writeLines o v (d :: d2 :: dims)) with
      (bindR (mapR (fun i => bindR (index v i) (fun sub => writeLines o sub (d2 :: dims))) (range d))
        (fun lls => Ok (concat lls))).
    destruct (mapR _ _) as [lls|] eqn:E; cbn [bindR]; [|discriminate]. intros [= <-].
    assert (K : Forall (Forall okl) lls).
    { eapply mapR_Forall; [|exact E]. intros i y _ Ey. cbv beta in Ey. destruct (index v i); [|discriminate].
      eapply IH; eauto. }
    clear E. induction K; simpl; auto. apply Forall_app. auto.
Qed.
Lemma sim_data_2010 : sim tr (writeData_2010 o0) (writeData_2010 o1).
Proof.
  unfold writeData_2010. apply sim_rev_bind; [item|].
  apply sim_selfb; intros X HX. eapply (sim_same (fun _ => True)); [apply sim_lifts; auto|intros x0 _].
  eapply (sim_same (fun _ => True)); [apply sim_lifts; auto|intros ms _].
  apply sim_forW; intros m _. apply sim_seq; [apply sim_x_aux|].
  apply sim_intb; intros nv. apply sim_forW; intros n _.
  apply sim_selfb; intros V HV. eapply (sim_same (fun _ => True)); [apply sim_lifts; auto|intros v _].
  apply sim_listb; intros nx Hnx. eapply (sim_same (fun _ => True)); [apply sim_lifts; auto|intros dims _].
  eapply (sim_same (Forall okl)).
  - Local Transparent cat_items.
    change (writeLines o0 v dims) with (writeLines o v dims). change (writeLines o1 v dims) with (writeLines o v dims).
    Local Opaque cat_items. apply sim_lifts. intros ls. apply okl_writeLines.
  - intros ls Hls. apply sim_forW. intros l Hl. rewrite Forall_forall in Hls.
    eapply (sim_bind T); [|intros; now apply sim_fwrite].
    apply sim_lift. apply ann_line_rel; [item|]. auto.
Qed.
Lemma sim_data : sim tr (writeData o0 c) (writeData o1 c).
Proof.
  destruct c; simpl.
  - unfold writeData_1001. data_tac.
  - unfold writeData_1010. data_tac; apply sim_x_aux.
  - unfold writeData_1020. data_tac; apply sim_x_aux.
  - apply sim_data_2010.
  - unfold writeData_2110. data_tac; [apply sim_x_aux|apply sim_inner].
  - unfold writeData_2160. data_tac; try apply sim_inner.
  - unfold writeData_2310. data_tac; try apply sim_x_aux.
    match goal with |- sim _ (bindW (match ?r with _ => _ end) _) _ => destruct r end; data_tac.
    intros _. apply ub_nil.
  - apply sim_data_2010.
  - apply sim_data_2010.
Qed.
Local Transparent bindW.
Lemma sim_body nh : sim tr (write_body o0 c nh) (write_body o1 c nh).
Proof.
  unfold write_body. apply sim_seq.
  - intros s0 s1 (E & Hd & Hh & Hf). split; [|exact I]. split; [exact E|]. split; [exact Hd|]. split; [exact T_nil|exact Hf].
  - apply sim_seq; [|apply sim_data]. destruct nh; [apply sim_ret; exact I|apply sim_header].
Qed.
End Sim.
