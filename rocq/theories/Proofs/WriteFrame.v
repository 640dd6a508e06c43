(** Frame properties of the header writers, for arbitrary dictionaries. *)
From Coq Require Import List NArith ZArith Bool Lia.
From Verif Require Import Py.Str Py.Res Py.Num Model.Dict Model.TextParser Model.CommonUtils
  Model.NAWrite Proofs.StrLemmas Proofs.NumLemmas Proofs.TextLemmas.
Import ListNotations.

(** ** Texts that end with a newline *)
Lemma ends_nl_suffix a b : ends_nl (a ++ b) -> b <> [] -> ends_nl b.
Proof.
  intros [E|(t & E)] Hb.
  - apply app_eq_nil in E as [_ E]. congruence.
  - right. destruct (exists_last Hb) as (b' & x & ->). rewrite app_assoc in E.
    apply app_inj_tail in E as [_ ->]. now exists b'.
Qed.
Lemma ends_nl_drop a b : ends_nl (a ++ b) -> ends_nl b.
Proof. intros H. destruct b; [now left|]. eapply ends_nl_suffix; eauto. congruence. Qed.

Lemma ends_nl_concat_map (l : list str) : ends_nl (concat (map (fun s => s ++ nl) l)).
Proof. apply ends_nl_unlines. Qed.

Lemma ends_nl_lstrip s : ends_nl s -> ends_nl (lstrip s).
Proof.
  intros H. destruct (lstrip_by_decomp is_space s) as (a & _ & E & _).
  unfold lstrip. rewrite E in H. eapply ends_nl_drop; eauto.
Qed.

Lemma count_chr_app d a b : count_chr d (a ++ b) = (count_chr d a + count_chr d b)%nat.
Proof. induction a as [|c a IH]; simpl; auto. destruct (c =? d)%N; simpl; lia. Qed.
Lemma count_chr_mem d a : mem_chr d a = false <-> count_chr d a = O.
Proof.
  induction a as [|c a IH]; [easy|]. rewrite mem_chr_cons, orb_false_iff, IH. cbn [count_chr].
  rewrite (N.eqb_sym d c). destruct (c =? d)%N; [|tauto].
  split; [intros [? _]; discriminate|discriminate].
Qed.

Lemma ends_nl_count s : ends_nl s -> length (lines s) = count_chr c_nl s.
Proof.
  intros [->|(t & ->)]; auto. induction t as [|c t IH]; auto.
  cbn [app lines count_chr]. destruct (c =? c_nl)%N; [simpl; now rewrite IH|].
  destruct (lines (t ++ [c_nl])) eqn:E; simpl in *; auto.
  assert (concat (lines (t ++ [c_nl])) = t ++ [c_nl]) by apply lines_concat.
  rewrite E in H. simpl in H. destruct t; discriminate.
Qed.

(** The first line of a text. *)
Lemma lines_first s l ls : lines s = l :: ls -> ends_nl s ->
  exists b, l = b ++ nl /\ mem_chr c_nl b = false /\ s = l ++ concat ls /\ ends_nl (concat ls).
Proof.
  revert l ls. induction s as [|c s IH]; intros l ls E He; [discriminate|].
  assert (Hc : c :: s = l ++ concat ls).
  { rewrite <- (lines_concat (c :: s)), E. reflexivity. }
  cbn [lines] in E. destruct (N.eqb_spec c c_nl) as [->|Hn].
  - injection E as <- <-. exists []. repeat split; auto.
    eapply ends_nl_drop with (a := [c_nl]). now rewrite lines_concat.
  - assert (Hs : ends_nl s).
    { destruct s; [now left|]. eapply (ends_nl_suffix [c]); eauto. congruence. }
    destruct (lines s) as [|l2 ls2] eqn:E2.
    + assert (s = []) by (rewrite <- (lines_concat s), E2; reflexivity). subst s.
      destruct He as [He|([|x [|y t]] & He)]; try discriminate.
      injection He as He. congruence.
    + injection E as <- <-. destruct (IH _ _ eq_refl Hs) as (b & -> & Hb & _ & He2).
      exists (c :: b). repeat split; auto.
      rewrite mem_chr_cons. destruct (N.eqb_spec c_nl c); [congruence|]. auto.
Qed.

Section Frame.
Context {num : Type} `{NumOps num}.
Variable o : opts num.
Local Notation W := (W num).

(** Results of the formatting functions end with a newline. *)
Lemma fmt_sep_nl sep n l s : fmt_sep (num:=num) sep n l = Ok s -> ends_nl s.
Proof.
  unfold fmt_sep. destruct (Nat.eqb _ _); [|discriminate]. destruct (mapR _ _); simpl; [|discriminate].
  intros [= <-]. apply ends_nl_nl.
Qed.
Lemma fmt_lines_nl n l s : fmt_lines (num:=num) n l = Ok s -> ends_nl s.
Proof.
  unfold fmt_lines. destruct (Nat.eqb _ _); [|discriminate]. destruct (mapR _ _); simpl; [|discriminate].
  intros [= <-]. apply ends_nl_concat_map.
Qed.
Lemma fmt_dx_nl n l s : fmt_dx_1010 (num:=num) n l = Ok s -> ends_nl s.
Proof.
  unfold fmt_dx_1010. destruct (Nat.eqb _ _); [|discriminate]. destruct (mapR _ _); simpl; [|discriminate].
  intros [= <-]. apply ends_nl_nl.
Qed.
Lemma x_line_nl a b i s : x_line o a b i = Ok s -> ends_nl s.
Proof.
  unfold x_line. destruct (index a i); simpl; [|discriminate].
  destruct (as_int _); simpl; [|discriminate]. destruct (index b _); simpl; [|discriminate].
  destruct (as_list _); simpl; [|discriminate]. destruct (Nat.eqb _ _); [|discriminate].
  destruct (mapR _ _); simpl; [|discriminate]. intros [= <-]. apply ends_nl_nl.
Qed.

Lemma annotateLine_suffix item l n s : annotateLine o item l n = Ok s -> exists a, s = a ++ l.
Proof.
  unfold annotateLine. destruct (o_annot o); [|intros [= <-]; now exists []].
  destruct (getAnnotation o item n); simpl; [|discriminate]. intros [= <-]. eauto.
Qed.
Lemma annotateLine_nl item l n s : annotateLine o item l n = Ok s -> ends_nl l -> l <> [] -> ends_nl s.
Proof. intros E. destruct (annotateLine_suffix _ _ _ _ E) as (a & ->). apply ends_nl_app. Qed.
Lemma annotate_from_nl item ls n s : annotate_from o item ls n = Ok s ->
  ends_nl (concat ls) -> Forall (fun l => l <> []) ls -> ends_nl s.
Proof.
  revert n s. induction ls as [|l ls IH]; simpl; intros n s.
  - intros [= <-] _ _. now left.
  - destruct (annotateLine o item l (Some n)) as [a|] eqn:Ea; simpl; [|discriminate].
    destruct (annotate_from o item ls (S n)) as [b|] eqn:Eb; simpl; [|discriminate].
    intros [= <-] He Hn. inversion Hn; subst.
    destruct (concat ls) as [|c t] eqn:E.
    + assert (b = []) as ->.
      { destruct ls as [|l2 ls]; [simpl in Eb; congruence|]. inversion H3; subst.
        simpl in E. apply app_eq_nil in E as [E _]. contradiction. }
      rewrite app_nil_r in *. eapply annotateLine_nl; eauto.
    + assert (ends_nl b).
      { eapply IH; eauto. eapply ends_nl_suffix; eauto. congruence. }
      apply ends_nl_app; auto. intros ->.
      destruct ls as [|l2 ls]; [discriminate|]. simpl in Eb.
      destruct (annotateLine o item l2 (Some (S n))) as [a2|] eqn:Ea2; simpl in Eb; [|discriminate].
      destruct (annotate_from o item ls (S (S n))); simpl in Eb; [|discriminate].
      injection Eb as Eb. apply app_eq_nil in Eb as [-> _].
      destruct (annotateLine_suffix _ _ _ _ Ea2) as (u & Eu). symmetry in Eu.
      apply app_eq_nil in Eu as [_ ->]. inversion H3; subst. contradiction.
Qed.
Lemma splitlines_nonnil s : Forall (fun l => l <> []) (splitlines s).
Proof.
  induction s as [|c s IH]; simpl; auto. destruct (is_linebreak c && _); [constructor; auto; congruence|].
  destruct (splitlines s); constructor; try congruence; auto. now inversion IH.
Qed.
Lemma annotateLines_nl item t s : annotateLines o item t = Ok s -> ends_nl t -> ends_nl s.
Proof.
  intros E He. eapply annotate_from_nl; eauto using splitlines_nonnil.
  now rewrite splitlines_concat.
Qed.

(** ** Header building steps *)
(** The keys whose lists are reversed in place. *)
Definition mutable_keys : list key := [kDX; kNX; kXNAME].

(** A step that builds the header: whatever its outcome, it leaves the file
    alone, only appends to the header buffer, and changes nothing in the
    dictionary but the lists above. *)
Definition hstep {A} (m : W A) : Prop := forall s r s', m s = (r, s') ->
  w_file s' = w_file s /\
  (exists h, w_head s' = w_head s ++ h) /\
  (forall k, ~ In k mutable_keys -> w_na s' k = w_na s k).

Lemma hstep_same {A} (m : W A) : (forall s, snd (m s) = s) -> hstep m.
Proof.
  intros Hm s r s' E. specialize (Hm s). rewrite E in Hm. simpl in Hm. subst s'.
  repeat split; auto. exists []. now rewrite app_nil_r.
Qed.
Lemma hstep_ret {A} (a : A) : hstep (retW a).
Proof. now apply hstep_same. Qed.
Lemma hstep_lift {A} (r : Res A) : hstep (liftW r).
Proof. now apply hstep_same. Qed.
Lemma hstep_self k : hstep (self (num:=num) k).
Proof. now apply hstep_same. Qed.
Lemma hstep_bind {A B} (m : W A) (f : A -> W B) :
  hstep m -> (forall a, hstep (f a)) -> hstep (bindW m f).
Proof.
  intros Hm Hf s r s' E. unfold bindW in E. destruct (m s) as [r1 s1] eqn:Em.
  destruct (Hm _ _ _ Em) as (F1 & (h1 & E1) & K1). destruct r1 as [a|e].
  - destruct (Hf a _ _ _ E) as (F2 & (h2 & E2) & K2).
    repeat split; auto.
    + congruence.
    + exists (h1 ++ h2). now rewrite E2, E1, app_assoc.
    + intros k Hk. now rewrite K2, K1.
  - injection E as <- <-. repeat split; eauto.
Qed.
Lemma hstep_self_int k : hstep (self_int (num:=num) k).
Proof. apply hstep_bind; [apply hstep_self|]. intros. apply hstep_lift. Qed.
Lemma hstep_self_list k : hstep (self_list (num:=num) k).
Proof. apply hstep_bind; [apply hstep_self|]. intros. apply hstep_lift. Qed.
Lemma hstep_hwrite s0 : hstep (hwrite s0).
Proof. intros s r s' E. injection E as <- <-. simpl. repeat split; eauto. Qed.
Lemma hstep_hwrap item t : hstep (hwrap o item t).
Proof. apply hstep_bind; [apply hstep_lift|]. intros. apply hstep_hwrite. Qed.
Lemma hstep_hwraps item t : hstep (hwraps o item t).
Proof. apply hstep_bind; [apply hstep_lift|]. intros. apply hstep_hwrite. Qed.
Lemma hstep_reverse k : In k mutable_keys -> hstep (reverse_in_place (num:=num) k).
Proof.
  intros Hk. apply hstep_bind; [apply hstep_self|]. intros v.
  apply hstep_bind; [apply hstep_lift|]. intros v'.
  intros s r s' E. injection E as <- <-. simpl. repeat split; auto.
  - exists []. now rewrite app_nil_r.
  - intros k' Hk'. unfold upd. destruct (key_beq k k') eqn:Eb; auto.
    apply internal_key_dec_bl in Eb. subst. contradiction.
Qed.
Lemma hstep_forW {A} (l : list A) f : (forall a, hstep (f a)) -> hstep (forW l f).
Proof.
  induction l as [|x l IH]; simpl; intros Hf; [apply hstep_ret|].
  apply hstep_bind; auto.
Qed.

Ltac hstep_tac := repeat first
  [ apply hstep_ret | apply hstep_lift | apply hstep_self | apply hstep_self_int
  | apply hstep_self_list | apply hstep_hwrite | apply hstep_hwrap | apply hstep_hwraps
  | (apply hstep_reverse; simpl; tauto) | (apply hstep_forW; intros)
  | (apply hstep_bind; [|intros])
  | match goal with |- hstep (if ?b then _ else _) => destruct b end ].

Lemma hstep_common : hstep (writeCommonHeader o).
Proof. unfold writeCommonHeader. hstep_tac. Qed.
Lemma hstep_vars : hstep (writeVariablesHeaderSection o).
Proof. unfold writeVariablesHeaderSection. hstep_tac. Qed.
Lemma hstep_aux : hstep (writeAuxVariablesHeaderSection o).
Proof. unfold writeAuxVariablesHeaderSection. hstep_tac. Qed.
Lemma hstep_aux2160 : hstep (writeAuxVariablesHeaderSection_2160 o).
Proof. unfold writeAuxVariablesHeaderSection_2160. hstep_tac. Qed.
Lemma hstep_comments : hstep (writeComments o).
Proof. unfold writeComments. hstep_tac. Qed.

(** After the comments the header consists of whole lines. *)
Definition whole_head (m : W unit) : Prop := forall s s', m s = (Ok tt, s') -> ends_nl (w_head s').

Lemma whole_bind {A} (m : W A) f : (forall a, whole_head (f a)) -> whole_head (bindW m f).
Proof.
  intros Hf s s' E. unfold bindW in E. destruct (m s) as [[a|e] s1]; [|discriminate].
  eapply Hf; eauto.
Qed.

Lemma whole_comments : whole_head (writeComments o).
Proof.
  unfold writeComments. apply whole_bind; intros _. apply whole_bind; intros _.
  intros s s' E. unfold bindW at 1 in E.
  match type of E with (match ?m with _ => _ end) = _ => destruct m as [[[]|e] s1] eqn:E1; [|discriminate] end.
  assert (N1 : ends_nl (w_head s1)).
  { clear E s'. unfold bindW, self, liftW in E1. destruct (fmt_d (attr (w_na s) kNNCOML)) as [t|]; [|discriminate].
    unfold hwrap, wrapLine, bindW, liftW in E1.
    destruct (annotateLine o (lit "NNCOML") (t ++ nl) None) as [u|] eqn:Ea; [|discriminate].
    injection E1 as <-. simpl. destruct (annotateLine_suffix _ _ _ _ Ea) as (a & ->).
    apply ends_nl_app; [|destruct a; [destruct t|]; discriminate].
    rewrite app_assoc. apply ends_nl_nl. }
  unfold self_int, self_list, self, bindW, liftW in E.
  destruct (as_int _); [|discriminate]. destruct (as_list _); [|discriminate].
  destruct (fmt_lines _ _) as [t|] eqn:Et; [|discriminate].
  unfold hwraps, wrapLines, bindW, liftW in E.
  destruct (annotateLines _ _ _) as [u|] eqn:Eu; [|discriminate].
  injection E as <-. simpl. apply ends_nl_app2; auto.
  eapply annotateLines_nl; eauto. eapply fmt_lines_nl; eauto.
Qed.

(** ** The end of every header writer *)
Definition finish : W unit := bindW (writeComments o) (fun _ => bindW (fixHeaderLength o) (fun _ => flushHeader)).

(** What a finished header looks like. *)
Definition good_header (s s' : wst num) : Prop :=
  exists ann ffi body n,
    w_file s' = w_file s ++ (ann ++ dec_of_nat n ++ o_delim o ++ ffi ++ nl) ++ body /\
  getAnnotation o (lit "NLHEAD_FFI") None = Ok ann /\
  fmt_d (attr (w_na s) kFFI) = Ok ffi /\
  ends_nl body /\
  n = S (count_chr c_nl body).

Definition hdr_tail (m : W unit) : Prop := forall s s', m s = (Ok tt, s') -> good_header s s'.
Definition hdr_err (m : W unit) : Prop := forall s e s', m s = (Err e, s') -> w_file s' = w_file s.

Lemma annotateLine_get item l c s : annotateLine o item l c = Ok s ->
  exists a, getAnnotation o item c = Ok a /\ s = a ++ l.
Proof.
  unfold annotateLine, getAnnotation. destruct (o_annot o).
  - destruct (o_ann o item); simpl; [|discriminate]. intros [= <-]. eauto.
  - intros [= <-]. exists []. auto.
Qed.

Lemma finish_tail : hdr_tail finish.
Proof.
  intros s s' E. unfold finish, bindW in E.
  destruct (writeComments o s) as [[[]|e] s1] eqn:E1; [|discriminate].
  destruct (hstep_comments _ _ _ E1) as (F1 & _ & K1).
  pose proof (whole_comments _ _ E1) as N1.
  destruct (fixHeaderLength o s1) as [[[]|e] s2] eqn:E2; [|discriminate].
  injection E as <-. unfold fixHeaderLength in E2.
  destruct (fmt_d (attr (w_na s1) kFFI)) as [ffi|] eqn:Ef; [|discriminate].
  destruct (annotateLine o _ _ None) as [l0|] eqn:Ea; [|discriminate].
  destruct (lines (w_head s1)) as [|l rest] eqn:El; [discriminate|].
  injection E2 as <-. simpl.
  destruct (annotateLine_get _ _ _ _ Ea) as (ann & Hann & ->).
  destruct (lines_first _ _ _ El N1) as (b & -> & Hb & Hh & He).
  exists ann, ffi, (concat rest), (length ((b ++ nl) :: rest)).
  repeat split; auto.
  - now rewrite F1.
  - unfold attr in *. rewrite K1 in Ef; auto. unfold mutable_keys. simpl. intuition discriminate.
  - pose proof (ends_nl_count _ N1) as Hc. rewrite El in Hc. etransitivity; [exact Hc|]. rewrite Hh, count_chr_app, count_chr_app.
    apply count_chr_mem in Hb. rewrite Hb. simpl. reflexivity.
Qed.

Lemma finish_err : hdr_err finish.
Proof.
  intros s e s' E. unfold finish, bindW in E.
  destruct (writeComments o s) as [[[]|e1] s1] eqn:E1;
    destruct (hstep_comments _ _ _ E1) as (F1 & _ & _).
  - destruct (fixHeaderLength o s1) as [[[]|e2] s2] eqn:E2; [discriminate|].
    injection E as <- <-. unfold fixHeaderLength in E2.
    destruct (fmt_d (attr (w_na s1) kFFI)) as [ffi|] eqn:Ef; [|congruence].
    destruct (annotateLine o _ _ None) as [l0|] eqn:Ea; [|congruence].
    destruct (lines (w_head s1)); [congruence|discriminate].
  - congruence.
Qed.

Lemma tail_bind {A} (m : W A) (f : A -> W unit) :
  hstep m -> (forall a, hdr_tail (f a)) -> hdr_tail (bindW m f).
Proof.
  intros Hm Hf s s' E. unfold bindW in E. destruct (m s) as [[a|e] s1] eqn:Em; [|discriminate].
  destruct (Hm _ _ _ Em) as (F1 & _ & K1).
  destruct (Hf a _ _ E) as (ann & ffi & body & n & P1 & P2 & P3 & P4 & P5).
  exists ann, ffi, body, n. repeat split; auto; [congruence|].
  unfold attr in *. rewrite K1 in P3; auto. unfold mutable_keys. simpl. intuition discriminate.
Qed.
Lemma err_bind {A} (m : W A) (f : A -> W unit) :
  hstep m -> (forall a, hdr_err (f a)) -> hdr_err (bindW m f).
Proof.
  intros Hm Hf s e s' E. unfold bindW in E. destruct (m s) as [[a|e1] s1] eqn:Em;
    destruct (Hm _ _ _ Em) as (F1 & _ & K1).
  - rewrite (Hf a _ _ _ E). auto.
  - congruence.
Qed.

Ltac tail_tac := repeat
  (first [ exact finish_tail | exact finish_err
         | (apply tail_bind; [|intros]) | (apply err_bind; [|intros])
         | apply hstep_common | apply hstep_vars | apply hstep_aux | apply hstep_aux2160
         | hstep_tac ]).

Lemma tail_1001 : hdr_tail (writeHeader_1001 o). Proof. unfold writeHeader_1001. tail_tac. Qed.
Lemma tail_1010 : hdr_tail (writeHeader_1010 o). Proof. unfold writeHeader_1010. tail_tac. Qed.
Lemma tail_1020 : hdr_tail (writeHeader_1020 o). Proof. unfold writeHeader_1020. tail_tac. Qed.
Lemma tail_2010 : hdr_tail (writeHeader_2010 o). Proof. unfold writeHeader_2010. tail_tac. Qed.
Lemma tail_2110 : hdr_tail (writeHeader_2110 o). Proof. unfold writeHeader_2110. tail_tac. Qed.
Lemma tail_2310 : hdr_tail (writeHeader_2310 o). Proof. unfold writeHeader_2310. tail_tac. Qed.
Lemma err_1001 : hdr_err (writeHeader_1001 o). Proof. unfold writeHeader_1001. tail_tac. Qed.
Lemma err_1010 : hdr_err (writeHeader_1010 o). Proof. unfold writeHeader_1010. tail_tac. Qed.
Lemma err_1020 : hdr_err (writeHeader_1020 o). Proof. unfold writeHeader_1020. tail_tac. Qed.
Lemma err_2010 : hdr_err (writeHeader_2010 o). Proof. unfold writeHeader_2010. tail_tac. Qed.
Lemma err_2110 : hdr_err (writeHeader_2110 o). Proof. unfold writeHeader_2110. tail_tac. Qed.
Lemma err_2310 : hdr_err (writeHeader_2310 o). Proof. unfold writeHeader_2310. tail_tac. Qed.
End Frame.
