(** Lemmas on the text parser. *)
From Coq Require Import List NArith ZArith Bool Lia.
From Verif Require Import Py.Str Py.Res Py.Num Model.Dict Model.TextParser Spec.TextSpec
  Proofs.StrLemmas Proofs.NumLemmas.
Import ListNotations.

(** ** Fields *)
Lemma blank_all_sp s : blank s <-> all_sp s = true.
Proof. unfold blank. rewrite forallb_forall, Forall_forall. tauto. Qed.
Lemma word_no_sp w : word w <-> w <> [] /\ no_sp w = true.
Proof.
  unfold word. rewrite forallb_forall, Forall_forall. unfold nonsp.
  split; intros [H1 H2]; split; auto; intros x Hx; specialize (H2 x Hx);
    destruct (is_space x); simpl in *; congruence.
Qed.

Lemma split_ws_word_app w s : word w -> word_end s -> split_ws (w ++ s) = w :: split_ws s.
Proof.
  intros Hw Hs. apply word_no_sp in Hw as [Hn Hw].
  destruct s as [|c s].
  - rewrite app_nil_r. rewrite split_ws_word by auto. reflexivity.
  - simpl in Hs. rewrite split_ws_app by auto. rewrite split_ws_word by auto.
    simpl. now rewrite split_ws_cons_sp.
Qed.

Lemma fields_split s ws : fields s ws -> split_ws s = ws.
Proof.
  induction 1 as [s Hs|a w s ws Ha Hw He Hf IH].
  - apply split_ws_all_sp. now apply blank_all_sp.
  - rewrite split_ws_sp_app by now apply blank_all_sp.
    rewrite split_ws_word_app by auto. now rewrite IH.
Qed.

Lemma span_word s : exists w r, s = w ++ r /\ no_sp w = true /\ word_end r.
Proof.
  induction s as [|c s (w & r & -> & Hw & Hr)].
  - exists [], []. simpl. auto.
  - destruct (is_space c) eqn:E.
    + exists [], (c :: w ++ r). simpl. auto.
    + exists (c :: w), r. simpl. unfold nonsp. rewrite E. auto.
Qed.

Lemma split_fields s : fields s (split_ws s).
Proof.
  remember (length s) as n eqn:En. assert (Hn : (length s <= n)%nat) by lia. clear En.
  revert s Hn. induction n as [|n IH]; intros s Hn.
  - destruct s; [|simpl in Hn; lia]. apply f_blank. constructor.
  - destruct (lstrip_by_decomp is_space s) as (a & Ha & Hs & Hh).
    destruct (lstrip_by is_space s) as [|c t] eqn:E.
    + rewrite app_nil_r in Hs. subst a. rewrite split_ws_all_sp by auto.
      apply f_blank. now apply blank_all_sp.
    + destruct (span_word (c :: t)) as (w & r & Ew & Hw & Hr).
      destruct w as [|c' w].
      { simpl in Ew. subst r. simpl in Hr. congruence. }
      rewrite Hs, Ew. rewrite split_ws_sp_app by auto.
      assert (Hwd : word (c' :: w)).
      { apply word_no_sp. split; auto; congruence. }
      rewrite split_ws_word_app by auto.
      apply f_word; auto. { now apply blank_all_sp. }
      apply IH. rewrite Hs, Ew, !app_length in Hn. simpl in Hn. lia.
Qed.

Lemma fields_iff s ws : fields s ws <-> split_ws s = ws.
Proof. split; [apply fields_split|]. intros <-. apply split_fields. Qed.

(** ** The trailing annotation *)
Lemma scan_open_sound r p : scan_open r = Some p ->
  exists g, r = rev g ++ c_lbrace :: p /\ forallb brace_inner g = true.
Proof.
  revert p. induction r as [|c r IH]; simpl; [discriminate|]. intros p.
  destruct (N.eqb_spec c c_lbrace) as [->|Hc].
  - intros [= ->]. exists []. auto.
  - destruct (brace_inner c) eqn:E; [|discriminate]. intros Hp.
    destruct (IH _ Hp) as (g & -> & Hg). exists (g ++ [c]).
    rewrite rev_app_distr, forallb_app. simpl. now rewrite Hg, E.
Qed.

Lemma scan_open_complete g p : forallb brace_inner g = true ->
  scan_open (g ++ c_lbrace :: p) = Some p.
Proof.
  induction g as [|c g IH]; intros H.
  - reflexivity.
  - cbn [forallb] in H. apply andb_true_iff in H as [H1 H2]. cbn [app scan_open]. rewrite H1.
    unfold brace_inner in H1. destruct (N.eqb_spec c c_lbrace); [discriminate|]. auto.
Qed.

Lemma brace_inner_iff g : forallb brace_inner g = true <->
  ~ In c_lbrace g /\ ~ In c_caret g /\ ~ In c_rbrace g.
Proof.
  rewrite forallb_forall. unfold brace_inner. split.
  - intros H. repeat split; intros Hi; specialize (H _ Hi); discriminate.
  - intros (A & B & C) x Hx.
    destruct (N.eqb_spec x c_lbrace); [subst; contradiction|].
    destruct (N.eqb_spec x c_caret); [subst; contradiction|].
    destruct (N.eqb_spec x c_rbrace); [subst; contradiction|]. reflexivity.
Qed.

Lemma right_strip_annotated l p g b : annotated l p g b -> right_strip_braces l = p.
Proof.
  intros (-> & Hp & Hnl & G1 & G2 & G3 & Hb).
  unfold right_strip_braces, rstrip.
  assert (E : rstrip_by is_space (p ++ [c_lbrace] ++ g ++ [c_rbrace] ++ b)
              = (p ++ [c_lbrace] ++ g) ++ [c_rbrace]).
  { rewrite !app_assoc. rewrite rstrip_by_app by now apply blank_all_sp.
    apply rstrip_by_last. reflexivity. }
  rewrite E, rev_app_distr. cbn [rev app].
  rewrite N.eqb_refl.
  rewrite rev_app_distr. cbn [rev app].
  replace ((rev g ++ [c_lbrace]) ++ rev p) with (rev g ++ c_lbrace :: rev p)
    by (rewrite <- app_assoc; reflexivity).
  rewrite scan_open_complete.
  - assert (H1 : is_nil (rev p) = false).
    { apply is_nil_false. intros H. apply Hp. rewrite <- (rev_involutive p), H. reflexivity. }
    assert (H2 : mem_chr c_nl (rev p) = false).
    { apply mem_chr_false. rewrite <- in_rev. auto. }
    rewrite H1, H2. simpl. apply rev_involutive.
  - rewrite forallb_forall. intros x Hx. apply in_rev in Hx.
    revert x Hx. rewrite <- forallb_forall. apply brace_inner_iff. auto.
Qed.

Lemma right_strip_cases l :
  (exists g b, annotated l (right_strip_braces l) g b) \/ right_strip_braces l = l.
Proof.
  unfold right_strip_braces, rstrip.
  destruct (rstrip_by_decomp is_space l) as (b & Hb & Hl & _).
  destruct (rev (rstrip_by is_space l)) as [|c r] eqn:E; [now right|].
  destruct (N.eqb_spec c c_rbrace) as [->|]; [|now right].
  destruct (scan_open r) as [p|] eqn:Es; [|now right].
  destruct (is_nil p || mem_chr c_nl p) eqn:Ep; [now right|].
  left. apply orb_false_iff in Ep as [P1 P2].
  destruct (scan_open_sound _ _ Es) as (g & -> & Hg).
  exists g, b. apply brace_inner_iff in Hg. destruct Hg as (G1 & G2 & G3).
  repeat split; auto.
  - rewrite Hl at 1. rewrite <- (rev_involutive (rstrip_by is_space l)), E.
    cbn [rev app]. rewrite rev_app_distr, rev_involutive. cbn [rev app].
    rewrite <- !app_assoc. reflexivity.
  - intros Hr. apply is_nil_false in P1. apply P1. rewrite <- (rev_involutive p), Hr. reflexivity.
  - rewrite <- in_rev. now apply mem_chr_false.
  - now apply blank_all_sp.
Qed.

Lemma annotated_unique l p g b p' g' b' :
  annotated l p g b -> annotated l p' g' b' -> p = p' /\ g = g' /\ b = b'.
Proof.
  intros H H'. assert (E : p = p').
  { now rewrite <- (right_strip_annotated _ _ _ _ H), (right_strip_annotated _ _ _ _ H'). }
  subst p'. destruct H as (-> & _ & _ & _ & _ & G & Hb), H' as (E & _ & _ & _ & _ & G' & Hb').
  apply app_inv_head in E. injection E as E.
  assert (K : forall g g' b b' : str, ~ In c_rbrace g -> ~ In c_rbrace g' ->
     g ++ c_rbrace :: b = g' ++ c_rbrace :: b' -> g = g' /\ b = b').
  { clear. induction g as [|c g IH]; intros [|c' g'] b b' N1 N2 E; simpl in E.
    - injection E as E. auto.
    - injection E as E1 E2. subst c'. exfalso. apply N2. now left.
    - injection E as E1 E2. subst c. exfalso. apply N1. now left.
    - injection E as E1 E2. subst c'.
      destruct (IH g' b b') as [-> ->]; auto.
      + intros HI. apply N1. now right.
      + intros HI. apply N2. now right. }
  destruct (K g g' b b') as [-> ->]; auto.
Qed.

Lemma right_strip_payload l p : payload l p <-> right_strip_braces l = p.
Proof.
  split.
  - intros [(g & b & H)|[H ->]]; [eapply right_strip_annotated; eauto|].
    destruct (right_strip_cases l) as [(g & b & K)|K]; auto. exfalso. eapply H; eauto.
  - intros <-. destruct (right_strip_cases l) as [H|H]; [now left|].
    rewrite H. right. split; auto. intros p' g b K.
    pose proof (right_strip_annotated _ _ _ _ K) as E. rewrite E in H. subst p'.
    destruct K as (K & _). apply (f_equal (@length _)) in K. rewrite !app_length in K.
    simpl in K. lia.
Qed.

Lemma right_strip_id l : mem_chr c_rbrace l = false -> right_strip_braces l = l.
Proof.
  intros H. apply right_strip_payload. right. split; auto. intros p g b (E & _).
  rewrite E, !mem_chr_app, !orb_false_iff in H.
  destruct H as (_ & _ & _ & H & _). discriminate.
Qed.

(** ** Readers *)
Section Readers.
Context {num : Type} `{NumOps num}.

Lemma mapR_length {A B} (f : A -> Res B) l r : mapR f l = Ok r -> length r = length l.
Proof.
  revert r. induction l as [|x l IH]; simpl; intros r E.
  - now injection E as <-.
  - destruct (f x); simpl in E; [|discriminate]. destruct (mapR f l); simpl in E; [|discriminate].
    injection E as <-. simpl. f_equal. now apply IH.
Qed.
Lemma mapR_app {A B} (f : A -> Res B) l1 l2 :
  mapR f (l1 ++ l2) = bindR (mapR f l1) (fun a => bindR (mapR f l2) (fun b => Ok (a ++ b))).
Proof.
  induction l1 as [|x l1 IH]; simpl.
  - destruct (mapR f l2); reflexivity.
  - destruct (f x); simpl; auto. rewrite IH. destruct (mapR f l1); simpl; auto.
    destruct (mapR f l2); reflexivity.
Qed.
Lemma mapR_ok {A B} (f : A -> Res B) g l :
  (forall x, In x l -> f x = Ok (g x)) -> mapR f l = Ok (map g l).
Proof.
  induction l as [|x l IH]; simpl; intros K; auto.
  rewrite K by auto. simpl. rewrite IH by auto. reflexivity.
Qed.
Lemma mapR_forall2 {A B} (f : A -> Res B) l r :
  mapR f l = Ok r <-> Forall2 (fun x y => f x = Ok y) l r.
Proof.
  revert r. induction l as [|x l IH]; simpl; intros r.
  - split; intros K; [injection K as <-; constructor | inversion K; reflexivity].
  - split.
    + destruct (f x) eqn:E; simpl; [|discriminate]. destruct (mapR f l); simpl; [|discriminate].
      intros [= <-]. constructor; auto. now apply IH.
    + intros K. inversion K as [|? ? ? ? E1 E2]; subst. apply IH in E2. rewrite E1. simpl.
      now rewrite E2.
Qed.

Lemma readItemsFromLine_nonblank l n t ws :
  right_strip_braces l = l -> split_ws l = ws -> ws <> [] -> n = Z.of_nat (length ws) ->
  readItemsFromLine (num:=num) l n t = mapR (conv t) ws.
Proof.
  intros E Ew Hn ->. unfold readItemsFromLine. rewrite E, re_split_strip.
  assert (K : is_nil (strip l) = false).
  { apply is_nil_false. intros K. apply strip_nil_iff, split_ws_all_sp in K. congruence. }
  rewrite K, Ew. rewrite Z.eqb_refl. simpl. rewrite andb_false_r. reflexivity.
Qed.

Lemma readItemsFromLine_ok l n t vs : (1 <= n)%Z ->
  readItemsFromLine (num:=num) l n t = Ok vs ->
  Z.of_nat (length vs) = n /\
  exists ws, (fields (right_strip_braces l) ws \/ (blank (right_strip_braces l) /\ ws = [[]])) /\
             mapR (conv t) ws = Ok vs.
Proof.
  intros Hn. unfold readItemsFromLine. rewrite re_split_strip.
  destruct (Z.eqb_spec n 0); [lia|]. simpl.
  match goal with |- context [Z.eqb ?a n] => destruct (Z.eqb_spec a n) as [E|E] end;
    simpl; [|discriminate].
  intros K. split. { now rewrite (mapR_length _ _ _ K). }
  eexists. split; [|exact K].
  destruct (is_nil (strip (right_strip_braces l))) eqn:En.
  - right. split; auto. apply blank_all_sp, strip_nil_iff. now apply is_nil_true.
  - left. apply split_fields.
Qed.

(** *** The multi-line reader *)
Definition toks (l : str) : list str := split_ws (right_strip_braces l).

Lemma unknown_items l : split_ws (strip (right_strip_braces l)) = toks l.
Proof. apply split_ws_strip. Qed.

Lemma unknown_loop_stop eof n rt ex ls :
  (n <= Z.of_nat (length rt))%Z -> unknown_loop eof n rt ex ls = Ok (rt, ex, ls).
Proof.
  intros Hn. destruct ls; simpl; destruct (Z.ltb_spec (Z.of_nat (length rt)) n); auto; lia.
Qed.
Lemma unknown_loop_step eof n rt ex l ls :
  (Z.of_nat (length rt) < n)%Z ->
  unknown_loop eof n rt ex (l :: ls) =
  unknown_loop eof n (rt ++ slice_to (toks l) n) (Some (slice_from (toks l) n)) ls.
Proof.
  intros Hn. cbn [unknown_loop]. destruct (Z.ltb_spec (Z.of_nat (length rt)) n); [|lia].
  now rewrite unknown_items.
Qed.
Lemma unknown_loop_eof eof n rt ex :
  (Z.of_nat (length rt) < n)%Z -> unknown_loop eof n rt ex [] = Err eof.
Proof. intros Hn. simpl. destruct (Z.ltb_spec (Z.of_nat (length rt)) n); auto; lia. Qed.

(** Enough lines, laid out so that the last line completes the record. *)
Lemma unknown_loop_exact eof n rt ex ls rest :
  ls <> [] -> toks (last ls []) <> [] ->
  (Z.of_nat (length rt + length (concat (map toks ls))) = n)%Z ->
  unknown_loop eof n rt ex (ls ++ rest) = Ok (rt ++ concat (map toks ls), Some [], rest).
Proof.
  revert rt ex. induction ls as [|l ls IH]; [congruence|]. intros rt ex _ Hl Hn.
  simpl in Hn. rewrite app_length in Hn.
  assert (Hpos : (length (toks l) + length (concat (map toks ls)) > 0)%nat).
  { assert (G : forall ls, ls <> [] -> toks (last ls []) <> [] -> (length (concat (map toks ls)) > 0)%nat).
    { clear. induction ls as [|a ls IH]; [congruence|]. intros _ Hl. simpl. rewrite app_length.
      destruct ls as [|b ls].
      - simpl in Hl. destruct (toks a); [congruence|]. simpl. lia.
      - assert ((length (concat (map toks (b :: ls))) > 0)%nat); [|lia].
        apply IH; [congruence|exact Hl]. }
    specialize (G (l :: ls)). simpl concat in G. rewrite app_length in G. apply G; auto. congruence. }
  cbn [app]. rewrite unknown_loop_step by lia.
  rewrite slice_to_ge, slice_from_ge by lia.
  destruct ls as [|l2 ls].
  - simpl. rewrite app_nil_r. apply unknown_loop_stop. rewrite app_length. simpl in Hn. lia.
  - rewrite IH; try congruence.
    + simpl. now rewrite <- !app_assoc.
    + exact Hl.
    + rewrite app_length. lia.
Qed.

Lemma readUnknown_exact eof n t ls rest ws :
  ls <> [] -> toks (last ls []) <> [] -> concat (map toks ls) = ws ->
  n = Z.of_nat (length ws) ->
  readItemsFromUnknownLines (num:=num) eof (ls ++ rest) n t
  = bindR (mapR (conv t) ws) (fun vs => Ok (vs, rest)).
Proof.
  intros Hn Hl <- ->. unfold readItemsFromUnknownLines.
  rewrite (unknown_loop_exact eof _ [] None ls rest Hn Hl) by reflexivity.
  reflexivity.
Qed.

(** What the multi-line reader returns in general. *)
Lemma unknown_loop_inv eof n rt ex ls rt' ex' rest :
  unknown_loop eof n rt ex ls = Ok (rt', ex', rest) ->
  exists used, ls = used ++ rest /\
    rt' = rt ++ concat (map (fun l => slice_to (toks l) n) used) /\
    (n <= Z.of_nat (length rt'))%Z /\
    (used = [] /\ ex' = ex \/
     exists u l, used = u ++ [l] /\ ex' = Some (slice_from (toks l) n) /\
       (Z.of_nat (length (rt ++ concat (map (fun l => slice_to (toks l) n) u))) < n)%Z).
Proof.
  revert rt ex. induction ls as [|l ls IH]; intros rt ex; simpl;
    destruct (Z.ltb_spec (Z.of_nat (length rt)) n) as [Hlt|Hge]; try discriminate.
  - intros [= <- <- <-]. exists []. simpl. rewrite app_nil_r. repeat split; auto.
  - rewrite unknown_items. intros E. destruct (IH _ _ E) as (used & -> & -> & Hn & Hx).
    exists (l :: used). simpl. rewrite <- !app_assoc. repeat split; auto.
    { now rewrite <- !app_assoc in Hn. }
    right. destruct Hx as [[-> ->]|(u & l2 & -> & -> & Hu)].
    + exists [], l. simpl. rewrite app_nil_r. auto.
    + exists (l :: u), l2. simpl. rewrite <- app_assoc in Hu. auto.
  - intros [= <- <- <-]. exists []. simpl. rewrite app_nil_r. repeat split; auto.
Qed.

(** When does it fail at the end of the input? *)
Lemma unknown_loop_eof_iff eof n rt ex ls :
  (unknown_loop eof n rt ex ls = Err eof
   <-> (Z.of_nat (length rt + length (concat (map toks ls))) < n)%Z).
Proof.
  revert rt ex. induction ls as [|l ls IH]; intros rt ex.
  - simpl. rewrite Nat.add_0_r. destruct (Z.ltb_spec (Z.of_nat (length rt)) n); split; auto; try lia; discriminate.
  - simpl concat. rewrite app_length.
    destruct (Z.ltb_spec (Z.of_nat (length rt)) n) as [Hlt|Hge].
    + rewrite unknown_loop_step by auto. rewrite IH. rewrite app_length.
      destruct (Z.leb_spec (Z.of_nat (length (toks l))) n).
      * rewrite slice_to_ge by auto. lia.
      * assert (Z.of_nat (length (slice_to (toks l) n)) = n).
        { unfold slice_to. destruct (Z.ltb_spec n 0); [lia|]. rewrite firstn_length. lia. }
        lia.
    + rewrite unknown_loop_stop by auto. split; [discriminate|lia].
Qed.

Lemma unknown_loop_err eof n rt ex ls e : unknown_loop eof n rt ex ls = Err e -> e = eof.
Proof.
  revert rt ex. induction ls as [|l ls IH]; intros rt ex; simpl;
    destruct (Z.of_nat (length rt) <? n)%Z; try discriminate; [congruence|apply IH].
Qed.

Lemma conv_err t s e : conv (num:=num) t s = Err e -> e = EValueError.
Proof.
  destruct t; simpl; [discriminate| |].
  - destruct (int_of_str s); congruence.
  - destruct (num_parse s); congruence.
Qed.
Lemma mapR_err {A B} (f : A -> Res B) l e : mapR f l = Err e -> exists x, In x l /\ f x = Err e.
Proof.
  induction l as [|x l IH]; simpl; [discriminate|].
  destruct (f x) eqn:E; simpl.
  - destruct (mapR f l) eqn:E2; simpl; [discriminate|]. intros [= ->].
    destruct IH as (y & Hy & Ey); auto. eauto.
  - intros [= ->]. eauto.
Qed.

Lemma readUnknown_eof_iff n t ls :
  readItemsFromUnknownLines (num:=num) EHang ls n t = Err EHang
  <-> (Z.of_nat (length (concat (map toks ls))) < n)%Z.
Proof.
  unfold readItemsFromUnknownLines.
  pose proof (unknown_loop_eof_iff EHang n [] None ls) as K. simpl in K. rewrite <- K. clear K.
  destruct (unknown_loop EHang n [] None ls) as [[[rt ex] rest]|e]; simpl.
  - split; [|discriminate]. destruct ex as [[|x ex]|]; try discriminate.
    destruct (mapR (conv t) rt) eqn:E; simpl; [discriminate|]. intros [= ->].
    apply mapR_err in E as (s & _ & E). apply conv_err in E. discriminate.
  - split; congruence.
Qed.

End Readers.
