(** Characters of the written text come from the dictionary and the options. *)
From Coq Require Import List NArith ZArith Bool Lia.
From Verif Require Import Py.Str Py.Res Py.Num Model.Dict Model.TextParser Model.CommonUtils
  Model.NAWrite Spec.CharSpec Proofs.StrLemmas Proofs.NumLemmas Proofs.TextLemmas Proofs.WriteFrame
  Proofs.WriteSim.
Import ListNotations.

Section Chars.
Context {num : Type} `{NumOps num}.
Variable o : opts num.
Local Notation W := (W num).
Variable c0 : chr.
(** Neither a digit, minus sign, space, newline nor a letter of the word None. *)
Hypothesis Hc0 : ~ In c0 (lit "0123456789- None" ++ nl).
Hypothesis Ho : absent_opts c0 o.

Definition ab (s : str) : Prop := ~ In c0 s.

Lemma ab_app a b : ab (a ++ b) <-> ab a /\ ab b.
Proof. unfold ab. rewrite in_app_iff. tauto. Qed.
Lemma ab_nil : ab []. Proof. intros []. Qed.
Lemma ab_incl a b : incl a b -> ab b -> ab a.
Proof. unfold ab. auto. Qed.
Lemma ab_nl : ab nl.
Proof. intros Hi. apply Hc0. apply in_or_app. now right. Qed.
Lemma ab_sp : ab (lit " ").
Proof. intros [Hi|[]]. apply Hc0. rewrite <- Hi. vm_compute. tauto. Qed.
Lemma ab_intchr s : forallb is_intchr s = true -> ab s.
Proof.
  rewrite forallb_forall. intros Hs Hi. apply Hc0. specialize (Hs _ Hi).
  unfold is_intchr in Hs. apply orb_true_iff in Hs as [Hs|Hs].
  - apply is_digit_range in Hs.
    assert (E : (c0 = 48 \/ c0 = 49 \/ c0 = 50 \/ c0 = 51 \/ c0 = 52 \/ c0 = 53 \/ c0 = 54 \/ c0 = 55 \/ c0 = 56 \/ c0 = 57)%N) by lia.
    vm_compute. repeat (destruct E as [->|E]; [tauto|]). subst. tauto.
  - apply N.eqb_eq in Hs. subst. vm_compute. tauto.
Qed.
Lemma ab_dec z : ab (dec_of_Z z). Proof. apply ab_intchr, dec_of_Z_chars. Qed.
Lemma ab_dec_nat n : ab (dec_of_nat n). Proof. rewrite dec_of_nat_Z. apply ab_dec. Qed.
Lemma ab_delim : ab (o_delim o). Proof. apply Ho. Qed.
Lemma ab_concat l : Forall ab l -> ab (concat l).
Proof. induction 1; simpl; [apply ab_nil|]. now apply ab_app. Qed.
Lemma ab_join sep l : ab sep -> Forall ab l -> ab (join sep l).
Proof.
  intros Hs. induction 1 as [|x l Hx Hl IH]; [apply ab_nil|].
  destruct l as [|y l]; auto. change (ab (x ++ sep ++ join sep (y :: l))).
  rewrite !ab_app. auto.
Qed.
Lemma ab_lstrip s p : ab s -> ab (lstrip_by p s).
Proof.
  intros Hs. destruct (lstrip_by_decomp p s) as (a & _ & E & _). rewrite E in Hs.
  now apply ab_app in Hs.
Qed.
Lemma ab_rstrip s p : ab s -> ab (rstrip_by p s).
Proof.
  intros Hs. destruct (rstrip_by_decomp p s) as (b & _ & E & _). rewrite E in Hs.
  now apply ab_app in Hs.
Qed.
Lemma ab_removelast (s : str) : ab s -> ab (removelast s).
Proof.
  intros Hs. destruct s as [|x s]; auto.
  assert (E : x :: s <> []) by congruence. apply app_removelast_last with (d := 0%N) in E.
  rewrite E in Hs. now apply ab_app in Hs.
Qed.
Lemma ab_concat_inv l : ab (concat l) -> Forall ab l.
Proof. induction l; simpl; auto. rewrite ab_app. intros [? ?]; auto. Qed.

(** values *)
Definition okv : pyv num -> Prop := absent c0.
Lemma ab_fmt_s v s : okv v -> fmt_s v = Ok s -> ab s.
Proof.
  intros Hv E. destruct v; simpl in E; try discriminate; injection E as <-.
  - unfold ab. intros Hi. apply Hc0. revert Hi. vm_compute. intuition.
  - apply ab_dec.
  - apply Ho.
  - now inversion Hv.
Qed.
Lemma ab_fmt_d (v : pyv num) s : fmt_d v = Ok s -> ab s.
Proof.
  destruct v; simpl; try discriminate.
  - intros [= <-]. apply ab_dec.
  - destruct (num_trunc x); [|discriminate]. intros [= <-]. apply ab_dec.
Qed.
Lemma ab_fmt_item v s : fmt_item o v = Ok s -> ab s.
Proof.
  unfold fmt_item. destruct v; simpl; try discriminate; intros [= <-]; apply ab_app;
    split; try apply ab_delim; apply Ho.
Qed.
Lemma mapR_Forall {A B} (P : B -> Prop) (f : A -> Res B) l r :
  (forall x y, In x l -> f x = Ok y -> P y) -> mapR f l = Ok r -> Forall P r.
Proof.
  revert r. induction l as [|x l IH]; simpl; intros r Hf.
  - intros [= <-]. constructor.
  - destruct (f x) eqn:Ex; simpl; [|discriminate]. destruct (mapR f l); simpl; [|discriminate].
    intros [= <-]. constructor; eauto.
Qed.
Lemma ab_cat_items {A} (l : list A) f s : cat_items o l f = Ok s -> ab s.
Proof.
  unfold cat_items. destruct (mapR _ l) eqn:E; simpl; [|discriminate]. intros [= <-].
  apply ab_concat. eapply mapR_Forall; [|eauto]. intros x y _ Hy.
  cbv beta in Hy; destruct (f x); simpl in Hy; [|discriminate]. eapply ab_fmt_item; eauto.
Qed.
Lemma okv_as_list v l : okv v -> as_list v = Ok l -> Forall okv l.
Proof.
  intros Hv. destruct v; simpl; try discriminate; intros [= <-]; inversion Hv as [| | |? Hs|? Hl]; subst; auto.
  apply Forall_forall. intros x Hx. apply in_map_iff in Hx as (ch & <- & Hc).
  constructor. intros [E|[]]. subst. contradiction.
Qed.
Lemma okv_index v i w : okv v -> index v i = Ok w -> okv w.
Proof.
  intros Hv. unfold index. destruct (as_list v) as [l|] eqn:E; simpl; [|discriminate].
  apply okv_as_list in E; auto. unfold nth_res, of_opt.
  destruct (nth_error l i) eqn:En; [|discriminate]. intros [= <-].
  rewrite Forall_forall in E. eapply E, nth_error_In; eauto.
Qed.
Lemma ab_mapR_fmt_s l ss : Forall okv l -> mapR fmt_s l = Ok ss -> Forall ab ss.
Proof.
  intros Hl. apply mapR_Forall. intros x y Hx. rewrite Forall_forall in Hl.
  apply ab_fmt_s; auto.
Qed.
Lemma ab_map_nl ss : Forall ab ss -> ab (concat (map (fun s => s ++ nl) ss)).
Proof.
  induction 1; simpl; [apply ab_nil|]. rewrite !ab_app. auto using ab_nl.
Qed.
Lemma ab_fmt_sep sep n l s : ab sep -> Forall okv l -> fmt_sep sep n l = Ok s -> ab s.
Proof.
  intros Hs Hl. unfold fmt_sep. destruct (Nat.eqb _ _); [|discriminate].
  destruct (mapR fmt_s l) eqn:E; simpl; [|discriminate]. intros [= <-].
  apply ab_app; split; [|apply ab_nl]. apply ab_join; auto. eapply ab_mapR_fmt_s; eauto.
Qed.
Lemma ab_fmt_lines n l s : Forall okv l -> fmt_lines n l = Ok s -> ab s.
Proof.
  intros Hl. unfold fmt_lines. destruct (Nat.eqb _ _); [|discriminate].
  destruct (mapR fmt_s l) eqn:E; simpl; [|discriminate]. intros [= <-].
  apply ab_map_nl. eapply ab_mapR_fmt_s; eauto.
Qed.
Lemma ab_fmt_dx n l s : Forall okv l -> fmt_dx_1010 n l = Ok s -> ab s.
Proof.
  intros Hl. unfold fmt_dx_1010. destruct (Nat.eqb _ _); [|discriminate].
  destruct (mapR fmt_s l) eqn:E; simpl; [|discriminate]. intros [= <-].
  apply ab_mapR_fmt_s in E; auto. apply ab_app; split; [|apply ab_nl].
  apply ab_concat. rewrite Forall_map. eapply Forall_impl; [|exact E].
  intros ? Ha. apply ab_app; split; auto. apply ab_sp.
Qed.
Lemma ab_x_line a b i s : x_line o a b i = Ok s -> ab s.
Proof.
  unfold x_line. destruct (index a i); simpl; [|discriminate].
  destruct (as_int _); simpl; [|discriminate]. destruct (index b _); simpl; [|discriminate].
  destruct (as_list _); simpl; [|discriminate]. destruct (Nat.eqb _ _); [|discriminate].
  destruct (mapR _ _) eqn:E; simpl; [|discriminate]. intros [= <-].
  apply ab_app; split; [|apply ab_nl]. apply ab_rstrip, ab_concat.
  eapply mapR_Forall; [|eauto]. intros x y _. apply ab_fmt_item.
Qed.
Lemma ab_stripQuotes v s : okv v -> stripQuotes v = Ok s -> ab s.
Proof.
  intros Hv. unfold stripQuotes. destruct (fmt_s v) as [t|] eqn:E; simpl; [|discriminate].
  pose proof (ab_fmt_s _ _ Hv E) as Ht. unfold stripQuotes_str.
  destruct t as [|ch t]; [discriminate|].
  assert (H1 : ab (if is_quote ch then t else ch :: t)).
  { destruct (is_quote ch); auto. intros Hi. apply Ht. now right. }
  destruct (last_chr _); [|discriminate]. intros [= <-].
  match goal with |- ab (if ?b then _ else _) => destruct b end; auto. now apply ab_removelast.
Qed.
Lemma ab_getAnnotation item n s : getAnnotation o item n = Ok s -> ab s.
Proof.
  unfold getAnnotation. destruct (o_annot o); [|intros [= <-]; apply ab_nil].
  destruct (o_ann o item) eqn:E; [|discriminate]. intros [= <-]. rewrite !ab_app.
  split; [eapply Ho; eauto|]. split; [|apply ab_delim]. destruct n; [|apply ab_nil].
  change (ab (lit " " ++ dec_of_nat n)). apply ab_app. split; [apply ab_sp|apply ab_dec_nat].
Qed.
Lemma ab_annotateLine item l n s : ab l -> annotateLine o item l n = Ok s -> ab s.
Proof.
  intros Hl E. destruct (annotateLine_get _ _ _ _ _ E) as (a & Ha & ->).
  apply ab_app. split; auto. eapply ab_getAnnotation; eauto.
Qed.
Lemma ab_annotate_from item ls n s : Forall ab ls -> annotate_from o item ls n = Ok s -> ab s.
Proof.
  intros Hl. revert n s. induction Hl as [|l ls Hl Hls IH]; simpl; intros n s.
  - intros [= <-]. apply ab_nil.
  - destruct (annotateLine _ _ _ _) eqn:E; simpl; [|discriminate].
    destruct (annotate_from _ _ _ _) eqn:E2; simpl; [|discriminate]. intros [= <-].
    apply ab_app. split; eauto. eapply ab_annotateLine; eauto.
Qed.
Lemma ab_annotateLines item t s : ab t -> annotateLines o item t = Ok s -> ab s.
Proof.
  intros Ht. apply ab_annotate_from. apply ab_concat_inv. now rewrite splitlines_concat.
Qed.

Lemma Forall_slice_to {A} (P : A -> Prop) l n : Forall P l -> Forall P (slice_to l n).
Proof.
  intros Hl. unfold slice_to. set (k := Z.to_nat _). rewrite <- (firstn_skipn k l) in Hl.
  apply Forall_app in Hl. tauto.
Qed.
Lemma Forall_slice_from {A} (P : A -> Prop) l n : Forall P l -> Forall P (slice_from l n).
Proof.
  intros Hl. unfold slice_from. set (k := Z.to_nat _). rewrite <- (firstn_skipn k l) in Hl.
  apply Forall_app in Hl. tauto.
Qed.

(** ** States *)
Definition okd (d : na num) : Prop := absent_dict c0 d.
Lemma okd_attr d k : okd d -> okv (attr d k).
Proof.
  intros Hd. unfold attr. destruct (d k) eqn:E; [eapply Hd; eauto|].
  destruct k; simpl; constructor; auto.
Qed.
Definition oks (s : wst num) : Prop := okd (w_na s) /\ ab (w_head s) /\ ab (w_file s).
(** A step keeps the state clean, and its result satisfies [P]. *)
Definition cstep {A} (P : A -> Prop) (m : W A) : Prop := forall s r s', m s = (r, s') -> oks s ->
  oks s' /\ (forall a, r = Ok a -> P a).

Lemma cstep_bind {A B} (P : A -> Prop) (Q : B -> Prop) (m : W A) f :
  cstep P m -> (forall a, P a -> cstep Q (f a)) -> cstep Q (bindW m f).
Proof.
  intros Hm Hf s r s' E Hs. unfold bindW in E. destruct (m s) as [[a|e] s1] eqn:Em;
    destruct (Hm _ _ _ Em Hs) as [H1 H2].
  - eapply Hf; eauto.
  - injection E as <- <-. split; auto. discriminate.
Qed.
Lemma cstep_lift {A} (P : A -> Prop) r : (forall a, r = Ok a -> P a) -> cstep P (liftW r).
Proof. intros HP s r' s' E Hs. injection E as <- <-. auto. Qed.
Lemma cstep_ret {A} (P : A -> Prop) a : P a -> cstep P (retW a).
Proof. intros HP s r' s' E Hs. injection E as <- <-. split; auto. intros b [= <-]. auto. Qed.
Lemma cstep_self k : cstep okv (self k).
Proof. intros s r s' E Hs. injection E as <- <-. split; auto. intros a [= <-]. apply okd_attr, Hs. Qed.
Lemma cstep_self_int k : cstep (fun _ => True) (self_int k).
Proof. eapply cstep_bind; [apply cstep_self|]. intros a _. now apply cstep_lift. Qed.
Lemma cstep_self_list k : cstep (Forall okv) (self_list k).
Proof.
  eapply cstep_bind; [apply cstep_self|]. intros a Ha. apply cstep_lift. intros l.
  now apply okv_as_list.
Qed.
Lemma cstep_hwrite t : ab t -> cstep (fun _ => True) (hwrite t).
Proof.
  intros Ht s r s' E (H1 & H2 & H3). injection E as <- <-. split; auto. repeat split; auto.
  simpl. now apply ab_app.
Qed.
Lemma cstep_fwrite t : ab t -> cstep (fun _ => True) (fwrite t).
Proof.
  intros Ht s r s' E (H1 & H2 & H3). injection E as <- <-. split; auto. repeat split; auto.
  simpl. now apply ab_app.
Qed.
Lemma cstep_hwrap item t : ab t -> cstep (fun _ => True) (hwrap o item t).
Proof.
  intros Ht. eapply (cstep_bind ab); [|intros; now apply cstep_hwrite].
  apply cstep_lift. intros a. now apply ab_annotateLine.
Qed.
Lemma cstep_hwraps item t : ab t -> cstep (fun _ => True) (hwraps o item t).
Proof.
  intros Ht. eapply (cstep_bind ab); [|intros; now apply cstep_hwrite].
  apply cstep_lift. intros a. now apply ab_annotateLines.
Qed.
Lemma cstep_reverse k : cstep (fun _ => True) (reverse_in_place k).
Proof.
  eapply cstep_bind; [apply cstep_self|]. intros v Hv.
  eapply (cstep_bind okv).
  - apply cstep_lift. intros a. destruct v; simpl; try discriminate. intros [= <-].
    inversion Hv; subst. constructor. now apply Forall_rev.
  - intros v' Hv' s r s' E (H1 & H2 & H3). injection E as <- <-. split; auto. repeat split; auto.
    intros k' w. simpl. unfold upd. destruct (key_beq k k'); [intros [= <-]; auto|apply H1].
Qed.
Lemma cstep_forW {A} (l : list A) f : (forall a, In a l -> cstep (fun _ => True) (f a)) ->
  cstep (fun _ => True) (forW l f).
Proof.
  induction l as [|x l IH]; simpl; intros Hf; [now apply cstep_ret|].
  eapply cstep_bind; [apply Hf; auto|]. intros _ _. apply IH. auto.
Qed.
Lemma cstep_weaken {A} (P Q : A -> Prop) m : (forall a, P a -> Q a) -> cstep P m -> cstep Q m.
Proof. intros HPQ Hm s r s' E Hs. destruct (Hm _ _ _ E Hs). split; auto. Qed.

(** Proof search: the result predicate of a lifted computation. *)
Lemma cstep_lift_ab {B} (Q : B -> Prop) (r : Res str) f :
  (forall s, r = Ok s -> ab s) -> (forall a, ab a -> cstep Q (f a)) -> cstep Q (bindW (liftW r) f).
Proof. intros H1 H2. eapply (cstep_bind ab); auto. now apply cstep_lift. Qed.

Lemma ab_bind_fmt_d (r : Res (pyv num)) s : bindR r fmt_d = Ok s -> ab s.
Proof. destruct r; simpl; [|discriminate]. apply ab_fmt_d. Qed.

Ltac abtac := repeat rewrite ab_app in *; intuition auto using ab_nil, ab_nl, ab_sp, ab_delim, ab_dec_nat, ab_dec.
Ltac abres := intros ?s ?E; solve
  [ eapply ab_fmt_d; eauto | eapply ab_bind_fmt_d; eauto | eapply ab_stripQuotes; eauto
  | eapply ab_getAnnotation; eauto | eapply ab_fmt_s; eauto
  | eapply ab_fmt_sep; [| |eauto]; auto using ab_delim, ab_nil, Forall_rev, Forall_slice_to, Forall_slice_from
  | eapply ab_fmt_lines; [|eauto]; auto using Forall_rev, Forall_slice_from
  | eapply ab_fmt_dx; [|eauto]; auto
  | eapply ab_cat_items; eauto
  | eapply ab_annotateLine; [|eauto]; abtac ].
Ltac cstep_tac := repeat first
  [ (apply cstep_lift_ab; [abres|intros])
  | (eapply (cstep_bind okv); [apply cstep_self|intros])
  | (eapply cstep_bind; [apply cstep_self_int|intros])
  | (eapply cstep_bind; [apply cstep_self_list|intros])
  | (eapply cstep_bind; [apply cstep_reverse|intros])
  | (eapply (cstep_bind (fun _ => True)); [|intros])
  | (apply cstep_ret; exact I)
  | (apply cstep_hwrap; abtac) | (apply cstep_hwraps; abtac) | (apply cstep_hwrite; abtac)
  | (apply cstep_fwrite; abtac)
  | (apply cstep_forW; intros)
  | match goal with |- cstep _ (if ?b then _ else _) => destruct b end ].


Local Opaque self liftW bindW retW hwrap hwraps hwrite fwrite self_int self_list reverse_in_place
  fmt_d fmt_s stripQuotes getAnnotation fmt_sep fmt_lines fmt_dx_1010 cat_items annotateLine bindR.

Lemma cstep_common : cstep (fun _ => True) (writeCommonHeader o).
Proof. unfold writeCommonHeader. cstep_tac. Qed.
Lemma cstep_vars : cstep (fun _ => True) (writeVariablesHeaderSection o).
Proof. unfold writeVariablesHeaderSection. cstep_tac. Qed.
Lemma cstep_aux : cstep (fun _ => True) (writeAuxVariablesHeaderSection o).
Proof. unfold writeAuxVariablesHeaderSection. cstep_tac. Qed.
Lemma cstep_comments : cstep (fun _ => True) (writeComments o).
Proof. unfold writeComments. cstep_tac. Qed.


Lemma ab_lines s : ab s -> Forall ab (lines s).
Proof. intros Hs. apply ab_concat_inv. now rewrite lines_concat. Qed.

Lemma cstep_aux2160 : cstep (fun _ => True) (writeAuxVariablesHeaderSection_2160 o).
Proof. unfold writeAuxVariablesHeaderSection_2160. cstep_tac. Qed.
Lemma cstep_fix : cstep (fun _ => True) (fixHeaderLength o).
Proof.
  intros s r s' E (H1 & H2 & H3). split; auto. unfold fixHeaderLength in E.
  destruct (fmt_d _) as [f|] eqn:Ef; [|injection E as <- <-; repeat split; auto].
  destruct (annotateLine _ _ _ _) as [l0|] eqn:Ea; [|injection E as <- <-; repeat split; auto].
  destruct (lines (w_head s)) as [|l ls] eqn:El; injection E as <- <-; repeat split; auto.
  simpl. apply ab_app. split.
  - eapply ab_annotateLine; [|exact Ea]. apply ab_fmt_d in Ef. abtac.
  - apply ab_lines in H2. rewrite El in H2. inversion H2; subst. now apply ab_concat.
Qed.
Lemma cstep_flush : cstep (fun _ => True) flushHeader.
Proof.
  intros s r s' E (H1 & H2 & H3). injection E as <- <-. split; auto. repeat split; auto.
  simpl. now apply ab_app.
Qed.
Local Opaque fixHeaderLength flushHeader writeCommonHeader writeVariablesHeaderSection
  writeAuxVariablesHeaderSection writeAuxVariablesHeaderSection_2160 writeComments forW.

Lemma ab_dxname (l : list (pyv num)) a n s :
  Forall okv l -> ab a ->
  (if Nat.eqb (length l) n then bindR (mapR fmt_s l) (fun ss => Ok (a ++ concat ss ++ nl)) else Err ETypeError) = Ok s -> ab s.
Proof.
  Local Transparent bindR. intros Hl Ha. destruct (Nat.eqb _ _); [|discriminate].
  destruct (mapR fmt_s l) eqn:E; simpl; [|discriminate]. intros [= <-].
  apply ab_mapR_fmt_s in E; auto. rewrite !ab_app. auto using ab_concat, ab_nl.
Qed.
Lemma ab_xname (l : list (pyv num)) a n s :
  Forall okv l -> ab a ->
  (if Nat.eqb (length l) n then bindR (mapR fmt_s l) (fun ss => Ok (concat (map (fun s => a ++ s ++ nl) ss))) else Err ETypeError) = Ok s -> ab s.
Proof.
  Local Transparent bindR. intros Hl Ha. destruct (Nat.eqb _ _); [|discriminate].
  destruct (mapR fmt_s l) eqn:E; simpl; [|discriminate]. intros [= <-].
  apply ab_mapR_fmt_s in E; auto. apply ab_concat. rewrite Forall_map.
  eapply Forall_impl; [|exact E]. intros t Ht. rewrite !ab_app. auto using ab_nl.
Qed.

Ltac sect := eapply (cstep_bind (fun _ => True));
  [ first [ apply cstep_common | apply cstep_vars | apply cstep_aux | apply cstep_aux2160
          | apply cstep_comments | apply cstep_fix | apply cstep_reverse ] | intros _ _ ].
Ltac block := eapply (cstep_bind (fun _ => True)); [solve [cstep_tac]|intros _ _].

Lemma cstep_header_1001 : cstep (fun _ => True) (writeHeader_1001 o).
Proof.
  unfold writeHeader_1001. sect.
  eapply (cstep_bind (fun _ => True)).
  { apply cstep_lift_ab; [intros s; apply ab_getAnnotation|intros a Ha].
    eapply cstep_bind; [apply cstep_self_int|intros niv _].
    eapply cstep_bind; [apply cstep_self_list|intros l Hl].
    apply cstep_lift_ab; [intros s; apply ab_dxname; auto|intros t Ht]. now apply cstep_hwrite. }
  intros _ _. eapply (cstep_bind (fun _ => True)).
  { apply cstep_lift_ab; [intros s; apply ab_getAnnotation|intros a Ha].
    eapply cstep_bind; [apply cstep_self_int|intros niv _].
    eapply cstep_bind; [apply cstep_self_list|intros l Hl].
    apply cstep_lift_ab; [intros s; apply ab_xname; auto|intros t Ht]. now apply cstep_hwrite. }
  intros _ _. do 3 sect. apply cstep_flush.
Qed.
Lemma cstep_header_1010 : cstep (fun _ => True) (writeHeader_1010 o).
Proof. unfold writeHeader_1010. sect. do 2 block. do 4 sect. apply cstep_flush. Qed.
Lemma cstep_header_1020 : cstep (fun _ => True) (writeHeader_1020 o).
Proof. unfold writeHeader_1020. sect. do 3 block. do 4 sect. apply cstep_flush. Qed.
Lemma cstep_header_2110 : cstep (fun _ => True) (writeHeader_2110 o).
Proof. unfold writeHeader_2110. sect. sect. block. sect. block. do 4 sect. apply cstep_flush. Qed.
Lemma cstep_header_2310 : cstep (fun _ => True) (writeHeader_2310 o).
Proof.
  unfold writeHeader_2310. sect.
  eapply (cstep_bind (fun _ => True)).
  { eapply (cstep_bind okv); [apply cstep_self|intros v Hv].
    eapply (cstep_bind okv); [apply cstep_lift; intros a; now apply okv_index|intros]. cstep_tac. }
  intros _ _. sect. block. do 4 sect. apply cstep_flush.
Qed.
Lemma cstep_header_2010 : cstep (fun _ => True) (writeHeader_2010 o).
Proof.
  unfold writeHeader_2010. sect. sect. block. sect. block. block.
  eapply (cstep_bind (fun _ => True)).
  { eapply cstep_bind; [apply cstep_self_int|intros].
    eapply (cstep_bind okv); [apply cstep_self|intros].
    eapply (cstep_bind okv); [apply cstep_self|intros].
    eapply (cstep_bind (Forall ab)).
    - apply cstep_lift. intros l. apply mapR_Forall. intros x y _. apply ab_x_line.
    - intros xl Hxl. apply cstep_forW. intros l Hl. apply cstep_hwrap. apply ab_lstrip.
      rewrite Forall_forall in Hxl. apply Hxl. now apply in_rev. }
  intros _ _. block. do 4 sect. apply cstep_flush.
Qed.
Lemma cstep_header_2160 : cstep (fun _ => True) (writeHeader_2160 o).
Proof.
  unfold writeHeader_2160.
  eapply (cstep_bind (fun _ => True)).
  { eapply (cstep_bind okv); [apply cstep_self|intros v Hv].
    destruct v as [| | | |[|v l]]; try (apply cstep_ret; exact I); try (apply cstep_lift; discriminate).
    eapply (cstep_bind (Forall ab)).
    - apply cstep_lift. intros a. apply mapR_Forall. intros x y Hx.
      inversion Hv as [| | | |? Hl]; subst. rewrite Forall_forall in Hl. specialize (Hl _ Hx).
      destruct x; try discriminate. intros [= <-]. now inversion Hl.
    - intros ss Hss. eapply (cstep_bind (fun _ => True)); [apply cstep_fwrite|intros; apply cstep_fwrite; apply ab_nl].
      apply ab_join; auto using ab_nl. }
  intros _ _. sect. sect. block. block. sect. block. do 4 sect. apply cstep_flush.
Qed.
Lemma cstep_header c : cstep (fun _ => True) (writeHeader o c).
Proof.
  destruct c; simpl; auto using cstep_header_1001, cstep_header_1010, cstep_header_1020,
    cstep_header_2010, cstep_header_2110, cstep_header_2160, cstep_header_2310.
Qed.
End Chars.
