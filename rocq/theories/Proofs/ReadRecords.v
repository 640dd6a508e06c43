(** The records of a 1001 data section. *)
From Coq Require Import List NArith ZArith Bool Lia.
From Verif Require Import Py.Str Py.Res Py.Num Model.Dict Model.TextParser Model.CommonUtils
  Model.NARead Spec.TextSpec Spec.ReadSpec Proofs.StrLemmas Proofs.NumLemmas Proofs.TextLemmas Proofs.ReadData.
Import ListNotations.

Section Records.
Context {num : Type} `{NumOps num}.
Local Notation pyv := (pyv num).
Local Notation dst := (dst (num:=num)).

Lemma modify_nth_nth (l l' : list pyv) i f : modify_nth l i f = Ok l' ->
  (exists x y, nth_error l i = Some x /\ f x = Ok y /\ nth_error l' i = Some y) /\
  forall j, j <> i -> nth_error l' j = nth_error l j.
Proof.
  intros E. destruct (modify_nth_inv _ _ _ _ E) as (a & x & y & b & -> & <- & Ef & ->). split.
  - exists x, y. rewrite !nth_error_app2, Nat.sub_diag by lia. auto.
  - intros j Hj. destruct (Nat.lt_ge_cases j (length a)).
    + rewrite !nth_error_app1 by lia. reflexivity.
    + rewrite !nth_error_app2 by lia. destruct (j - length a)%nat eqn:Ej; [lia|reflexivity].
Qed.
Lemma append_each_nth N (v L L' : list pyv) : append_each N v L = Ok L' ->
  (forall j, (j < Z.to_nat N)%nat -> exists l x, nth_error L j = Some (PList l) /\ nth_error v j = Some x /\
     nth_error L' j = Some (PList (l ++ [x]))) /\ length L' = length L.
Proof.
  unfold append_each, range.
  assert (G : forall k a acc, forR (seq a k) (fun n L => bindR (nth_res v n) (fun x => modify_nth L n (app_item x))) acc = Ok L' ->
    length L' = length acc /\ forall j, ((j < a)%nat -> nth_error L' j = nth_error acc j) /\
      ((a <= j < a + k)%nat -> exists l x, nth_error acc j = Some (PList l) /\ nth_error v j = Some x /\ nth_error L' j = Some (PList (l ++ [x])))).
  { induction k as [|k IH]; intros a acc E; cbn [seq forR] in E.
    - injection E as <-. split; [reflexivity|]. intros j. split; [reflexivity|lia].
    - inv_bind E. inv_bind K. pose proof (modify_nth_length _ _ _ _ K) as Hl. destruct (modify_nth_nth _ _ _ _ K) as [(x & y & K1 & K2 & K3) K4].
      destruct (IH _ _ E) as [El Ej]. split; [congruence|]. intros j. destruct (Ej j) as [E1 E2]. split.
      + intros Hj. rewrite E1 by lia. apply K4. lia.
      + intros Hj. destruct (Nat.eq_dec j a) as [-> |Hne].
        * rewrite E1 by lia. unfold nth_res in K0. destruct (nth_error v a) as [w|]; [|discriminate]. injection K0 as ->.
          destruct x; try discriminate. cbn in K2. injection K2 as <-. eauto.
        * destruct E2 as (l & z & F1 & F2 & F3); [lia|]. rewrite K4 in F1 by lia. eauto. }
  intros E. destruct (G _ _ _ E) as [G1 G2]. split; [|exact G1]. intros j Hj. apply G2. lia.
Qed.

(** What record [i] of the data comes from: the group of lines [g]. *)
Definition from_group (nv : Z) (X V : list pyv) (i : nat) (g : list str) : Prop :=
  exists vs u l, mapR (conv TFloat) (concat (map toks g)) = Ok vs /\ (1 + nv <= Z.of_nat (length vs))%Z
    /\ g = u ++ [l] /\ (Z.of_nat (length (concat (map toks u))) < 1 + nv)%Z /\ (Z.of_nat (length (toks l)) <= 1 + nv)%Z
    /\ nth_error X i = nth_error vs 0
    /\ forall j, (j < Z.to_nat nv)%nat -> cell V j i = nth_error vs (S j).
Definition inv_rec (h : na num) (nv : Z) (ls0 : list str) (m : nat) (ls : list str) (s : dst) : Prop :=
  inv1001 nv m s /\ exists groups, ls0 = concat groups ++ ls /\ length groups = m /\
    forall i g, nth_error groups i = Some g -> from_group nv (d_X s) (d_V s) i g.

Lemma nth_error_snoc {A} (l : list A) x i : nth_error (l ++ [x]) i = if (i =? length l)%nat then Some x else nth_error l i.
Proof.
  destruct (Nat.eqb_spec i (length l)) as [-> |Hi].
  - now rewrite nth_error_app2, Nat.sub_diag by lia.
  - destruct (Nat.lt_ge_cases i (length l)); [now rewrite nth_error_app1 by lia|].
    rewrite nth_error_app2 by lia. destruct (i - length l)%nat eqn:E; [lia|]. cbn. rewrite (proj2 (nth_error_None l i)) by lia. now destruct n.
Qed.

Lemma rec_step h nv ls0 ls m s s1 l1 : h_int h kNV = Ok nv -> inv_rec h nv ls0 m ls s ->
  readData1_1001 h ls m s = Ok (s1, l1) -> inv_rec h nv ls0 (S m) l1 s1.
Proof.
  intros Hnv (Hi & groups & H0 & Hg & HG) E. split; [eapply step_1001; eauto|].
  destruct Hi as (Hx & _ & Hv & Hvn). unfold readData1_1001 in E. rewrite Hnv in E. cbn [bindR] in E.
  inv_bind E. destruct a as [xv rest]. inv_bind E. inv_bind E. injection E as <- <-.
  destruct (items_ok _ _ _ _ _ K) as (u & l & El & Em & Hu & Hl).
  exists (groups ++ [u ++ [l]]). rewrite concat_app. cbn [concat]. rewrite app_nil_r, <- app_assoc, <- El. split; [exact H0|].
  split; [rewrite app_length; cbn; lia|]. intros i g. rewrite nth_error_snoc. cbn [d_X d_V set_X set_V].
  destruct (append_each_nth _ _ _ _ K1) as [Hc Hlen].
  destruct (Nat.eqb_spec i (length groups)) as [-> |Hne].
  - intros [= <-]. exists xv, u, l. split; [exact Em|]. split; [lia|]. split; [reflexivity|]. split; [lia|]. split; [exact Hl|]. split.
    + rewrite nth_error_snoc, Hx, Hg, Nat.eqb_refl. unfold nth_res in K0. destruct (nth_error xv 0); cbn in K0; congruence.
    + intros j Hj. unfold cell. destruct (Hc j Hj) as (c & y & E1 & E2 & E3). rewrite E3.
      rewrite Forall_forall in Hvn. destruct (Hvn _ (nth_error_In _ _ E1)) as (c' & [= <-] & Hcl & _).
      rewrite nth_error_snoc, Hcl, Hg, Nat.eqb_refl. rewrite <- E2. destruct xv; [destruct j; discriminate|reflexivity].
  - intros Eg. destruct (HG i g Eg) as (vs & u' & l' & F1 & F2 & F3 & F4 & F5 & F6 & F7). exists vs, u', l'. repeat split; auto.
    + rewrite nth_error_snoc, Hx, <- Hg. destruct (Nat.eqb_spec i (length groups)); [contradiction|exact F6].
    + intros j Hj. rewrite <- F7 by exact Hj. unfold cell. destruct (Hc j Hj) as (c & y & E1 & E2 & E3). rewrite E3, E1.
      rewrite Forall_forall in Hvn. destruct (Hvn _ (nth_error_In _ _ E1)) as (c' & [= <-] & Hcl & _).
      rewrite nth_error_snoc, Hcl, <- Hg. destruct (Nat.eqb_spec i (length groups)); [contradiction|reflexivity].
Qed.
End Records.
