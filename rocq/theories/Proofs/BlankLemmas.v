(** The blank line check. *)
From Coq Require Import List NArith ZArith Bool Lia.
From Verif Require Import Py.Str Py.Res Model.NARead Spec.TextSpec
  Proofs.StrLemmas Proofs.TextLemmas.
Import ListNotations.

Lemma strip_blank l : is_nil (strip l) = true <-> blank l.
Proof. rewrite is_nil_true, strip_nil_iff, blank_all_sp. tauto. Qed.
Lemma strip_nonblank l : is_nil (strip l) = false <-> ~ blank l.
Proof. rewrite <- strip_blank. destruct (is_nil (strip l)); split; congruence. Qed.

Lemma check_true ls r : checkForBlankLines true ls = Ok r <-> r = [] /\ Forall blank ls.
Proof.
  induction ls as [|l ls IH]; simpl.
  - split; [intros [= <-]; auto|intros [-> _]; auto].
  - destruct (is_nil (strip l)) eqn:E.
    + rewrite IH. apply strip_blank in E. split; intros [-> K]; split; auto.
      now inversion K.
    + split; [discriminate|]. intros [_ K]. inversion K; subst.
      apply strip_nonblank in E. contradiction.
Qed.

Lemma check_ok ls r : checkForBlankLines false ls = Ok r <->
  exists b, ls = r ++ b /\ Forall (fun l => ~ blank l) r /\ Forall blank b.
Proof.
  revert r. induction ls as [|l ls IH]; intros r; simpl.
  - split.
    + intros [= <-]. exists []. auto.
    + intros (b & E & _ & _). destruct r; [auto|discriminate].
  - destruct (is_nil (strip l)) eqn:E.
    + rewrite check_true. apply strip_blank in E. split.
      * intros [-> K]. exists (l :: ls). auto.
      * intros (b & Eb & Hr & Hb). destruct r as [|x r].
        -- simpl in Eb. subst b. inversion Hb; auto.
        -- injection Eb as -> _. inversion Hr; subst. contradiction.
    + apply strip_nonblank in E. split.
      * destruct (checkForBlankLines false ls) as [r'|e] eqn:Ec; simpl; [|discriminate].
        intros [= <-]. destruct (proj1 (IH r') eq_refl) as (b & -> & Hr & Hb).
        exists b. auto.
      * intros (b & Eb & Hr & Hb). destruct r as [|x r].
        -- simpl in Eb. subst b. inversion Hb; subst. contradiction.
        -- injection Eb as <- Eb. inversion Hr; subst.
           rewrite (proj2 (IH r)); [reflexivity|exists b; auto].
Qed.

Lemma check_err_kind f ls e : checkForBlankLines f ls = Err e -> e = ENappy E_EmptyLine.
Proof.
  revert f. induction ls as [|l ls IH]; intros f; simpl; [discriminate|].
  destruct (is_nil (strip l)); eauto. destruct f; [congruence|].
  destruct (checkForBlankLines false ls) eqn:E; simpl; [discriminate|]. intros [= ->]. eauto.
Qed.

Lemma check_true_err ls e : checkForBlankLines true ls = Err e ->
  exists m y b, ls = m ++ y :: b /\ ~ blank y.
Proof.
  induction ls as [|l ls IH]; simpl; [discriminate|].
  destruct (is_nil (strip l)) eqn:E.
  - intros K. destruct (IH K) as (m & y & b & -> & Hy). exists (l :: m), y, b. auto.
  - intros _. exists [], l, ls. split; auto. now apply strip_nonblank.
Qed.

Lemma check_err ls : (exists e, checkForBlankLines false ls = Err e) <->
  exists a x m y b, ls = a ++ x :: m ++ y :: b /\ blank x /\ ~ blank y.
Proof.
  split.
  - intros [e He]. revert He. induction ls as [|l ls IH]; simpl; [discriminate|].
    destruct (is_nil (strip l)) eqn:E.
    + intros K. apply check_true_err in K as (m & y & b & -> & Hy).
      exists [], l, m, y, b. repeat split; auto. now apply strip_blank.
    + destruct (checkForBlankLines false ls) eqn:Ec; simpl; [discriminate|].
      intros [= ->]. destruct IH as (a & x & m & y & b & -> & Hx & Hy); auto.
      exists (l :: a), x, m, y, b. auto.
  - intros (a & x & m & y & b & -> & Hx & Hy).
    destruct (checkForBlankLines false (a ++ x :: m ++ y :: b)) as [r|e] eqn:E; eauto.
    exfalso. apply check_ok in E as (b' & E & Hr & Hb').
    rewrite Forall_forall in Hr, Hb'.
    assert (G : forall (l1 l2 : list str) x t r b', l1 ++ x :: t = r ++ b' ->
              (forall z, In z r -> ~ blank z) -> blank x -> forall z, In z t -> In z b').
    { clear. induction l1 as [|u l1 IH]; intros l2 x t r b' E Hr Hx z Hz.
      - destruct r as [|v r]; simpl in E.
        + subst b'. now right.
        + injection E as <- _. exfalso. apply (Hr x); [now left|auto].
      - destruct r as [|v r]; simpl in E.
        + subst b'. right. apply in_or_app. right. now right.
        + injection E as <- E. apply (IH l2 x t r b'); auto. intros w Hw. apply Hr. now right. }
    apply Hy. apply Hb'. apply (G a [] x (m ++ y :: b) r b' E Hr Hx).
    apply in_or_app. right. now left.
Qed.
