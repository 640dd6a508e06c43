(** Lemmas about Model/Collector.v: what becomes of each variable. *)
From Coq Require Import List NArith ZArith Bool Lia Permutation.
From Verif Require Import Py.Str Py.Res Py.Num Py.Arith Model.Dict Model.Xarray Model.Collector Spec.CollectorSpec
  Proofs.StrLemmas.
Import ListNotations.

Lemma bindR_ok {A B} (m : Res A) (f : A -> Res B) b : bindR m f = Ok b -> exists a, m = Ok a /\ f a = Ok b.
Proof. destruct m as [a | e]; cbn; intros H; [exists a; auto | discriminate H]. Qed.
Ltac bindE H x E :=
  let Q := fresh in apply bindR_ok in H; destruct H as (x & E & Q); rename Q into H; cbv beta in H.

Section L.
Context {num : Type} {Num : NumOps num} {Ar : ArithOps num}.
Local Notation xvar := (xvar num).
Local Notation axis := (axis num).

Lemma forR_app {A S} (l1 l2 : list A) (f : A -> S -> Res S) s :
  forR (l1 ++ l2) f s = bindR (forR l1 f s) (forR l2 f).
Proof.
  revert s. induction l1 as [| x t IH]; intros s; [reflexivity |]. cbn.
  destruct (f x s) as [s' | e]; [cbn; apply IH | reflexivity].
Qed.
Lemma forR_inv {A S} (P : S -> Prop) (l : list A) (f : A -> S -> Res S) s s' :
  (forall x s s', In x l -> f x s = Ok s' -> P s -> P s') -> forR l f s = Ok s' -> P s -> P s'.
Proof.
  revert s. induction l as [| x t IH]; intros s Hf R Ps; cbn in R; [injection R as <-; exact Ps |].
  destruct (f x s) as [s1 | e] eqn:F; [| discriminate R].
  apply (IH s1); [intros; eapply Hf; eauto; right; assumption | exact R |]. eapply Hf; eauto. left; reflexivity.
Qed.

(** ** The best variable *)
Definition inv_best (vars : list xvar) (best : option (nat * xvar)) : Prop :=
  match best with
  | None => forall v, In v vars -> rank v = 0%nat
  | Some (i, b) => nth_error vars i = Some b /\ rank b <> 0%nat /\
                   (forall v, In v vars -> (rank v <= rank b)%nat)
  end.
Lemma find_best_inv : forall (rest done : list xvar) best, inv_best done best ->
  inv_best (done ++ rest) (find_best (length done) rest best).
Proof.
  induction rest as [| v t IH]; intros done best I; cbn [find_best]; [rewrite app_nil_r; exact I |].
  replace (done ++ v :: t) with ((done ++ [v]) ++ t) by (rewrite <- app_assoc; reflexivity).
  replace (S (length done)) with (length (done ++ [v])) by (rewrite app_length; cbn; lia).
  apply IH. clear IH.
  assert (K : forall i b, nth_error done i = Some b -> nth_error (done ++ [v]) i = Some b).
  { intros i b E. rewrite nth_error_app1; [exact E | apply nth_error_Some; congruence]. }
  assert (K2 : nth_error (done ++ [v]) (length done) = Some v).
  { rewrite nth_error_app2, Nat.sub_diag by lia. reflexivity. }
  destruct (Nat.eqb_spec (rank v) 0) as [Z | Z].
  - destruct best as [[i b] |]; cbn in *.
    + destruct I as (I1 & I2 & I3). split; [auto | split; [exact I2 |]]. intros w Iw. apply in_app_iff in Iw as [Iw | [<- | []]]; [auto | lia].
    + intros w Iw. apply in_app_iff in Iw as [Iw | [<- | []]]; auto.
  - destruct best as [[i b] |]; cbn in I.
    + destruct I as (I1 & I2 & I3).
      destruct ((rank b <? rank v)%nat || ((rank v =? rank b)%nat && (size_of b <? size_of v)%nat)) eqn:C; cbn.
      * assert ((rank b <= rank v)%nat).
        { apply orb_true_iff in C as [C | C]; [apply Nat.ltb_lt in C; lia |].
          apply andb_true_iff in C as [C _]. apply Nat.eqb_eq in C. lia. }
        split; [exact K2 | split; [exact Z |]]. intros w Iw. apply in_app_iff in Iw as [Iw | [<- | []]]; [specialize (I3 _ Iw); lia | lia].
      * apply orb_false_iff in C as [C _]. apply Nat.ltb_ge in C.
        split; [auto | split; [exact I2 |]]. intros w Iw. apply in_app_iff in Iw as [Iw | [<- | []]]; [auto | lia].
    + cbn. split; [exact K2 | split; [exact Z |]]. intros w Iw. apply in_app_iff in Iw as [Iw | [<- | []]]; [rewrite (I _ Iw); lia | lia].
Qed.
Lemma find_best_spec (vars : list xvar) : inv_best vars (find_best 0 vars None).
Proof. apply (find_best_inv vars [] None). intros v []. Qed.

Lemma nth_error_split_perm {A} (l : list A) i x : nth_error l i = Some x ->
  Permutation l (x :: firstn i l ++ skipn (S i) l).
Proof.
  intros E. rewrite <- (firstn_skipn i l) at 1.
  assert (S : skipn i l = x :: skipn (S i) l).
  { revert i E. induction l as [| y t IH]; intros [| i] E; cbn in E; try discriminate E; [injection E as ->; reflexivity |].
    cbn [skipn]. apply IH, E. }
  rewrite S. symmetry. apply Permutation_middle.
Qed.

(** ** Re-ordering *)
Lemma somes_app {A} (l1 l2 : list (option A)) : somes (l1 ++ l2) = somes l1 ++ somes l2.
Proof. apply flat_map_app. Qed.
Lemma somes_none {A} n : somes (repeat (@None A) n) = [].
Proof. induction n as [| n IH]; [reflexivity | exact IH]. Qed.
Lemma set_nth_length {A} (l : list A) i x : length (set_nth l i x) = length l.
Proof. revert i. induction l as [| y t IH]; intros [| i]; cbn; auto. Qed.
Lemma set_nth_same {A} (l : list A) i x : (i < length l)%nat -> nth_error (set_nth l i x) i = Some x.
Proof. revert i. induction l as [| y t IH]; intros [| i] L; cbn in *; try lia; auto. apply IH. lia. Qed.
Lemma set_nth_other {A} (l : list A) i j x : i <> j -> nth_error (set_nth l i x) j = nth_error l j.
Proof. revert i j. induction l as [| y t IH]; intros [| i] [| j] N; cbn; auto; try congruence. Qed.
Lemma somes_set_nth {A} (l : list (option A)) i x : nth_error l i = Some None ->
  Permutation (somes (set_nth l i (Some x))) (x :: somes l).
Proof.
  revert i. induction l as [| [y |] t IH]; intros [| i] E; cbn in E; try discriminate E; cbn.
  - change (y :: somes (set_nth t i (Some x))) with ([y] ++ somes (set_nth t i (Some x))). rewrite (IH _ E). apply perm_swap.
  - reflexivity.
  - exact (IH _ E).
Qed.
Lemma slot_spec z i : slot z = Ok i -> Z.of_nat i = (z mod 1000)%Z /\ (i < 1000)%nat.
Proof.
  unfold slot. intros E. destruct ((0 <=? z) && (z <? 1000))%Z eqn:C.
  - injection E as <-. apply andb_true_iff in C as [C1 C2]. apply Z.leb_le in C1. apply Z.ltb_lt in C2.
    rewrite Z2Nat.id, Z.mod_small by lia. split; [reflexivity | lia].
  - destruct ((-1000 <=? z) && (z <? 0))%Z eqn:C'; [| discriminate E]. injection E as <-.
    apply andb_true_iff in C' as [C1 C2]. apply Z.leb_le in C1. apply Z.ltb_lt in C2.
    rewrite Z2Nat.id by lia. split; [| lia].
    rewrite <- (Z.mod_small (z + 1000) 1000) by lia.
    rewrite <- (Z_mod_plus_full z 1 1000). f_equal.
Qed.

Definition filled (l : list (option xvar)) (i : nat) : Prop := exists v, nth_error l i = Some (Some v).
Lemma positions_app att (a b : list xvar) : positions att (a ++ b) = positions att a ++ positions att b.
Proof. apply flat_map_app. Qed.

Lemma reorder_loop att : forall vs st st' (done : list xvar),
  Permutation (somes (fst st) ++ snd st) done ->
  length (fst st) = 1000%nat ->
  (forall i, filled (fst st) i -> In (Z.of_nat i) (positions att done)) ->
  NoDup (positions att (done ++ vs)) ->
  forR vs (reorder_step att) st = Ok st' ->
  Permutation (somes (fst st') ++ snd st') (done ++ vs).
Proof.
  induction vs as [| v t IH]; intros st st' done P L F ND R; cbn [forR] in R.
  - injection R as <-. rewrite app_nil_r. exact P.
  - bindE R s1 R1. replace (done ++ v :: t) with ((done ++ [v]) ++ t) in * by (rewrite <- app_assoc; reflexivity).
    refine (IH s1 st' (done ++ [v]) _ _ _ ND R); unfold reorder_step, n_attr in R1;
      destruct (lookup att (n_attrs (v_info v))) as [g |] eqn:A.
    + bindE R1 z Hz. bindE R1 i Hi. injection R1 as <-. cbn [fst snd].
      assert (Pos : positions att [v] = [(z mod 1000)%Z]).
      { unfold positions. cbn. rewrite A. destruct g as [np [| z' | | |]]; cbn in Hz; try discriminate Hz. injection Hz as ->. reflexivity. }
      destruct (slot_spec _ _ Hi) as [Ei Li].
      assert (N : nth_error (fst st) i = Some None).
      { destruct (nth_error (fst st) i) as [[w |] |] eqn:N; [| reflexivity | apply nth_error_None in N; lia].
        exfalso. assert (Fi : In (Z.of_nat i) (positions att done)) by (apply F; exists w; exact N).
        rewrite Ei in Fi. rewrite !positions_app, Pos, <- app_assoc in ND. cbn in ND. apply NoDup_remove_2 in ND.
        apply ND. apply in_app_iff. left. exact Fi. }
      rewrite (somes_set_nth _ _ v N), <- P. cbn. apply Permutation_cons_append.
    + injection R1 as <-. cbn [fst snd]. rewrite app_assoc, P. reflexivity.
    + bindE R1 z Hz. bindE R1 i Hi. injection R1 as <-. cbn. rewrite set_nth_length. exact L.
    + injection R1 as <-. exact L.
    + bindE R1 z Hz. bindE R1 i Hi. injection R1 as <-. cbn [fst].
      assert (Pos : positions att [v] = [(z mod 1000)%Z]).
      { unfold positions. cbn. rewrite A. destruct g as [np [| z' | | |]]; cbn in Hz; try discriminate Hz. injection Hz as ->. reflexivity. }
      destruct (slot_spec _ _ Hi) as [Ei Li].
      intros j [w W]. rewrite positions_app, Pos. apply in_app_iff.
      destruct (Nat.eq_dec i j) as [<- | Nij]; [right; left; symmetry; exact Ei |].
      rewrite set_nth_other in W by exact Nij. left. apply F. exists w. exact W.
    + injection R1 as <-. cbn [fst]. intros j W. rewrite positions_app. apply in_app_iff. left. apply F, W.
Qed.
Lemma reorder_perm att (vs vs' : list xvar) : NoDup (positions att vs) -> reorder att vs = Ok vs' -> Permutation vs' vs.
Proof.
  unfold reorder. intros ND R. bindE R st R1. injection R as <-.
  apply (reorder_loop att vs (repeat None 1000, []) st []).
  - cbn [fst snd]. rewrite somes_none. reflexivity.
  - apply repeat_length.
  - intros i [v V]. cbn [fst] in V. apply nth_error_In, repeat_spec in V. discriminate V.
  - exact ND.
  - exact R1.
Qed.
(** without any condition: nothing new comes in *)
Lemma somes_set_in {A} (l : list (option A)) i x y : In y (somes (set_nth l i (Some x))) -> y = x \/ In y (somes l).
Proof.
  revert i. induction l as [| o t IH]; intros [| i]; cbn; auto.
  - intros [<- | I]; [left; reflexivity | right]. apply in_app_iff. right. exact I.
  - intros I. apply in_app_iff in I as [I | I]; [right; apply in_app_iff; left; exact I |].
    destruct (IH _ I) as [-> | I']; [left; reflexivity | right; apply in_app_iff; right; exact I'].
Qed.
Lemma reorder_in att (vs vs' : list xvar) v : reorder att vs = Ok vs' -> In v vs' -> In v vs.
Proof.
  unfold reorder. intros R. bindE R st R1. injection R as <-.
  refine (forR_inv (fun st => In v (somes (fst st) ++ snd st) -> In v vs) vs (reorder_step att) _ _ _ R1 _).
  - intros x s s' Ix E P I. unfold reorder_step in E. destruct (n_attr (v_info x) att) as [g |].
    + bindE E z Hz. bindE E i Hi. injection E as <-. cbn [fst snd] in I. apply in_app_iff in I as [I | I].
      * apply somes_set_in in I as [-> | I]; [exact Ix |]. apply P, in_app_iff. left. exact I.
      * apply P, in_app_iff. right. exact I.
    + injection E as <-. cbn [fst snd] in I. rewrite app_assoc in I. apply in_app_iff in I as [I | [<- | []]]; [apply P, I | exact Ix].
  - cbn [fst snd]. rewrite somes_none. intros [].
Qed.
Lemma reorder_step_some att (x : xvar) s s' : reorder_step att x s = Ok s' -> length (fst s) = 1000%nat ->
  length (fst s') = 1000%nat /\ somes (fst s') ++ snd s' <> [].
Proof.
  intros E P. unfold reorder_step in E. destruct (n_attr (v_info x) att) as [g |].
  - bindE E z Hz. bindE E i Hi. injection E as <-. cbn [fst snd]. rewrite set_nth_length. split; [exact P |].
    destruct (slot_spec _ _ Hi) as [_ Li].
    assert (W : nth_error (set_nth (fst s) i (Some x)) i = Some (Some x)) by (apply set_nth_same; rewrite P; exact Li).
    intros C. apply app_eq_nil in C as [C _]. apply nth_error_split in W as (a & b & W & _). rewrite W in C.
    rewrite somes_app in C. cbn in C. destruct (somes a); discriminate C.
  - injection E as <-. cbn [fst snd]. split; [exact P |]. intros C. apply app_eq_nil in C as [_ C].
    apply app_eq_nil in C as [_ C]. discriminate C.
Qed.
Lemma reorder_nonempty att (vs vs' : list xvar) : reorder att vs = Ok vs' -> vs <> [] -> vs' <> [].
Proof.
  unfold reorder. intros R N. bindE R st R1. injection R as <-.
  destruct vs as [| v t]; [congruence |].
  assert (L : forall st0, length (fst st0) = 1000%nat -> forR (v :: t) (reorder_step att) st0 = Ok st -> somes (fst st) ++ snd st <> []).
  { intros st0 L R0. cbn [forR] in R0. bindE R0 s1 R2.
    refine (proj2 (forR_inv (fun st => length (fst st) = 1000%nat /\ somes (fst st) ++ snd st <> []) t (reorder_step att) _ _ _ R0 (reorder_step_some _ _ _ _ R2 L))).
    intros x s s' _ E [P _]. exact (reorder_step_some _ _ _ _ E P). }
  refine (L _ _ R1). cbn [fst]. apply repeat_length.
Qed.

(** ** Sorting *)
Definition others (s : sorting) : list xvar := s_main s ++ s_aux s ++ s_unused s.
Lemma others_add_main (v : xvar) s : Permutation (others (add_main v s)) (v :: others s).
Proof. unfold others, add_main; cbn. rewrite <- app_assoc. symmetry. apply Permutation_middle. Qed.
Lemma others_add_aux (v : xvar) s : Permutation (others (add_aux v s)) (v :: others s).
Proof.
  unfold others, add_aux; cbn. rewrite <- app_assoc. symmetry. rewrite (app_assoc (s_main s)), (app_assoc (s_main s)). apply Permutation_middle.
Qed.
Lemma others_add_unused (v : xvar) s : Permutation (others (add_unused v s)) (v :: others s).
Proof. unfold others, add_unused; cbn. rewrite !app_assoc. symmetry. apply Permutation_cons_append. Qed.

Lemma sort_var_in (best : xvar) ids v s s' : sort_var best ids v s = Ok s' ->
  s' = s \/ s' = add_main v s \/ s' = add_aux v s \/ s' = add_unused v s \/
  exists n, s' = mkSort (Some [1020%Z]) (Some n) (s_main s) (s_aux s) (s_unused s).
Proof.
  unfold sort_var. intros E. destruct (mem_str (v_name v) ids); [injection E as <-; auto |].
  destruct (negb (nats_eqb (shape v) (shape best))).
  - destruct (v_axes v) as [| a [|]]; try (injection E as <-; auto).
    bindE E b0 B. bindE E same S0. destruct (negb same).
    + bindE E nv Hn. destruct nv as [[| n] |]; injection E as <-; eauto 10.
    + destruct (only_1020 s); injection E as <-; auto.
  - bindE E same S0. destruct same; injection E as <-; auto.
Qed.

(** the name of [v] is not that of a scalar and [v] is no regular subset *)
Lemma coarser_of (a b : axis) n : isAxisRegularlySpacedSubsetOf a b = Ok (Some (S n)) ->
  coarser a b /\ cf_conflict a b = false /\ same_units a b = Ok true /\ ax_len a <> 0%nat /\ ax_len b = (S n * ax_len a)%nat /\
  subset_loop (S n) (ax_vals a) 0 (ax_vals b) = Ok true.
Proof.
  unfold isAxisRegularlySpacedSubsetOf. intros E. destruct (cf_conflict a b); [discriminate E |].
  bindE E u U. destruct u; cbn [negb] in E; [| discriminate E].
  destruct (Nat.eqb_spec (ax_len a) 0) as [Z | Z]; [discriminate E |].
  destruct (Nat.eqb_spec (ax_len b mod ax_len a) 0) as [M | M]; cbn [negb] in E; [| discriminate E].
  bindE E s S0. destruct s; [| discriminate E]. injection E as E.
  assert (L : ax_len b = (S n * ax_len a)%nat).
  { rewrite <- E. rewrite (Nat.div_mod (ax_len b) (ax_len a)) at 1 by exact Z. lia. }
  rewrite E in S0.
  split; [| auto 10]. exists (S n). split; [lia |]. split; [exact L |].
  assert (G : forall l k, subset_loop (S n) l k (ax_vals b) = Ok true -> forall i x, nth_error l i = Some x ->
    exists y, nth_error (ax_vals b) (S n * (k + i)) = Some y /\ num_same y x = true).
  { induction l as [| x t IH]; intros k Q i y Ey; [destruct i; discriminate Ey |].
    cbn [subset_loop] in Q. bindE Q z Hz0. destruct (num_same z x) eqn:Sm; [| discriminate Q].
    destruct i as [| i]; cbn in Ey.
    - injection Ey as <-. exists z. split; [| exact Sm]. rewrite Nat.add_0_r.
      unfold nth_res, of_opt in Hz0. destruct (nth_error (ax_vals b) (S n * k)); [injection Hz0 as ->; reflexivity | discriminate Hz0].
    - replace (k + S i)%nat with (S k + i)%nat by lia. exact (IH _ Q _ _ Ey). }
  intros i x Ex. exact (G _ 0%nat S0 i x Ex).
Qed.

(** a regular subset under the name and with the length of the whole is identical *)
Lemma coarser_identical (a b : axis) n : isAxisRegularlySpacedSubsetOf a b = Ok (Some (S n)) ->
  ax_name a = ax_name b -> ax_len a = ax_len b -> areAxesIdentical b a = Ok true.
Proof.
  intros E Nm L. destruct (coarser_of _ _ _ E) as ((m & Hm & Lm & Q) & C & U & Z & Ln & _).
  unfold areAxesIdentical.
  assert (C' : cf_conflict b a = false).
  { unfold cf_conflict in *. revert C. generalize (ax_cf a), (ax_cf b). intros l. induction l as [| x t IH]; intros [| y s] C; cbn in *; auto.
    apply orb_false_iff in C as [C1 C2]. apply orb_false_iff. split; [| apply IH, C2].
    destruct x, y; auto. apply negb_false_iff, str_eqb_eq in C1 as ->. apply negb_false_iff, str_eqb_eq. reflexivity. }
  rewrite C'. rewrite Nm, (proj2 (str_eqb_eq _ _) eq_refl). cbn [negb].
  assert (U' : same_units b a = Ok true).
  { unfold same_units in *. destruct (n_attr (ax_info a) (lit "units")) as [x |], (n_attr (ax_info b) (lit "units")) as [y |]; auto.
    bindE U s S1. bindE U t T1. rewrite T1, S1. cbn. injection U as U. apply str_eqb_eq in U as ->. rewrite (proj2 (str_eqb_eq _ _) eq_refl). reflexivity. }
  rewrite U'. cbn [bindR negb]. rewrite L, Nat.eqb_refl. cbn [negb orb].
  assert (m = 1)%nat by (unfold ax_len in *; nia). subst m.
  unfold all_differ. destruct (ax_vals a) as [| x t] eqn:Va; [unfold ax_len in Z; rewrite Va in Z; cbn in Z; lia |].
  destruct (Q 0%nat x eq_refl) as (y & Ey & Sm). destruct (ax_vals b) as [| y' s]; [discriminate Ey |]. injection Ey as ->.
  cbn. rewrite Sm. reflexivity.
Qed.

Lemma sort_var_keeps (best : xvar) ids v s s' : sort_var best ids v s = Ok s' ->
  mem_str (v_name v) ids = false ->
  (forall a b, v_axes v = [a] -> hd_error (v_axes best) = Some b -> coarser a b -> ax_name a = ax_name b /\ ax_len a = ax_len b) ->
  Permutation (others s') (v :: others s).
Proof.
  unfold sort_var. intros E M C. rewrite M in E.
  destruct (negb (nats_eqb (shape v) (shape best))).
  - destruct (v_axes v) as [| a [| a2 t]] eqn:Va; try (injection E as <-; apply others_add_unused).
    bindE E b0 B. bindE E same S0. destruct same; cbn [negb] in E.
    + destruct (only_1020 s); injection E as <-; [apply others_add_unused | apply others_add_aux].
    + bindE E nv Hn. destruct nv as [[| n] |]; try (injection E as <-; apply others_add_unused).
      exfalso. assert (Hb : hd_error (v_axes best) = Some b0).
      { destruct (v_axes best); [discriminate B | exact (f_equal _ B) || (cbn in B; injection B as ->; reflexivity)]. }
      destruct (coarser_of _ _ _ Hn) as (Cs & _). destruct (C _ _ eq_refl Hb Cs) as [Nm L].
      rewrite (coarser_identical _ _ _ Hn Nm L) in S0. discriminate S0.
  - bindE E same S0. injection E as <-. destruct same; [apply others_add_main | apply others_add_unused].
Qed.
End L.

Section Analysis.
Context {num : Type} {Num : NumOps num} {Ar : ArithOps num}.
Local Notation xvar := (xvar num).
Local Notation axis := (axis num).
Variable E : env num.

(** [apart], of the variables in a collection. *)
Definition apart (vars : list xvar) : Prop :=
  (forall v z, In v vars -> In z vars -> has_axes v = true -> has_axes z = false -> v_name v <> v_name z) /\
  (forall v w a b, In v vars -> In w vars -> v_axes v = [a] -> hd_error (v_axes w) = Some b -> coarser a b ->
     ax_name a = ax_name b /\ ax_len a = ax_len b) /\
  NoDup (positions (lit "nasa_ames_var_number") (filter has_axes vars)) /\
  NoDup (positions (lit "nasa_ames_aux_var_number") (filter has_axes vars)).

Lemma positions_perm att (a b : list xvar) : Permutation a b -> Permutation (positions att a) (positions att b).
Proof. apply Permutation_flat_map. Qed.
Lemma NoDup_sub att (a b vars : list xvar) : Permutation vars (a ++ b) -> NoDup (positions att vars) -> NoDup (positions att a).
Proof.
  intros P ND. apply (Permutation_NoDup (positions_perm att _ _ P)) in ND. rewrite positions_app in ND.
  revert ND. generalize (positions att a), (positions att b). induction l as [| x t IH]; intros l' ND; [constructor |].
  inversion ND as [| ? ? Nx ND']; subst. constructor; [| exact (IH _ ND')]. intros I. apply Nx, in_app_iff. left. exact I.
Qed.
Lemma filter_perm {A} (f : A -> bool) (l : list A) : Permutation l (filter f l ++ filter (fun x => negb (f x)) l).
Proof.
  induction l as [| x t IH]; cbn; [constructor |]. destruct (f x); cbn; [constructor; exact IH |].
  rewrite IH at 1. apply Permutation_middle.
Qed.
Lemma mem_str_in s l : mem_str s l = true <-> In s l.
Proof.
  unfold mem_str. rewrite existsb_exists. split; [intros (x & I & Q); apply str_eqb_eq in Q as ->; exact I |].
  intros I. exists s. split; [exact I | apply str_eqb_eq; reflexivity].
Qed.
Lemma rank_has (v : xvar) : (rank v =? 0)%nat = negb (has_axes v).
Proof. unfold has_axes, rank. rewrite negb_involutive. reflexivity. Qed.

Lemma sort_loop (vars : list xvar) best : apart vars -> In best vars -> has_axes best = true ->
  forall rest s s', incl rest vars ->
  forR rest (sort_var best (map v_name (filter (fun v => (rank v =? 0)%nat) vars))) s = Ok s' ->
  Permutation (others s') (others s ++ filter has_axes rest).
Proof.
  intros (S1 & S2 & _) Ib Hb. induction rest as [| v t IH]; intros s s' Inc R; cbn [forR] in R.
  - injection R as <-. cbn. rewrite app_nil_r. reflexivity.
  - bindE R s1 R1. assert (Iv : In v vars) by (apply Inc; left; reflexivity).
    assert (Pt := IH s1 s' (fun x I => Inc x (or_intror I)) R). rewrite Pt. cbn [filter].
    destruct (has_axes v) eqn:Hv.
    + assert (P1 : Permutation (others s1) (v :: others s)).
      { apply (sort_var_keeps _ _ _ _ _ R1).
        - apply not_true_is_false. intros M. apply mem_str_in, in_map_iff in M as (z & Nz & Iz).
          apply filter_In in Iz as [Iz Rz]. rewrite rank_has in Rz. apply negb_true_iff in Rz.
          exact (S1 v z Iv Iz Hv Rz (eq_sym Nz)).
        - intros a b Va Vb C. exact (S2 v best a b Iv Ib Va Vb C). }
      rewrite P1. cbn. apply Permutation_middle.
    + unfold sort_var in R1.
      assert (M : mem_str (v_name v) (map v_name (filter (fun v => (rank v =? 0)%nat) vars)) = true).
      { apply mem_str_in, in_map, filter_In. split; [exact Iv |]. rewrite rank_has, Hv. reflexivity. }
      rewrite M in R1. injection R1 as <-. reflexivity.
Qed.

Lemma filter_Permutation {A} (f : A -> bool) l l' : Permutation l l' -> Permutation (filter f l) (filter f l').
Proof.
  induction 1 as [| x l l' P IH | x y l | l1 l2 l3 P1 IH1 P2 IH2]; cbn; auto.
  - destruct (f x); auto.
  - destruct (f x), (f y); auto. apply perm_swap.
  - etransitivity; eauto.
Qed.

(** what the analysis does, step by step *)
Lemma analyse_inv req vars a : analyseVariables E req vars = Ok (Some a) ->
  exists i best limited s,
    find_best 0 vars None = Some (i, best) /\ nth_error vars i = Some best /\ rank best <> 0%nat /\
    forR (firstn i vars ++ skipn (S i) vars) (sort_var best (map v_name (filter (fun v => (rank v =? 0)%nat) vars)))
      (mkSort limited None [best] [] []) = Ok s /\
    reorder (lit "nasa_ames_var_number") (s_main s) = Ok (a_main a) /\
    reorder (lit "nasa_ames_aux_var_number") (s_aux s) = Ok (a_aux a) /\
    a_unused a = s_unused s /\ a_zero a = filter (fun v => (rank v =? 0)%nat) vars /\ a_niv a = rank best /\
    decideFileFormatIndex req (rank best) (length (a_aux a)) (s_limited s) = Ok (a_ffi a) /\
    (rank best = 2%nat -> exists l, limited = Some l /\ incl l [2010; 2110; 2310]%Z) /\ (rank best <> 2%nat -> limited = None) /\
    a_nvpm a = s_nvpm s.
Proof.
  unfold analyseVariables. intros R. assert (B := find_best_spec vars).
  destruct (find_best 0 vars None) as [[i best] |] eqn:F; [| discriminate R]. destruct B as (B1 & B2 & _).
  bindE R limited Hl. bindE R s Hs. bindE R main Hm. bindE R aux Ha. bindE R ffi Hf. injection R as <-.
  exists i, best, limited, s. cbn.
  split; [reflexivity |]. split; [exact B1 |]. split; [exact B2 |]. split; [exact Hs |]. split; [exact Hm |]. split; [exact Ha |].
  split; [reflexivity |]. split; [reflexivity |]. split; [reflexivity |]. split; [exact Hf |]. clear - Hl.
  destruct (Nat.eqb_spec (rank best) 2) as [R2 | R2]; (split; [| split; [| reflexivity]]); intros R; try congruence.
  bindE Hl ax Hax. bindE Hl x Hx. injection Hl as <-. eexists. split; [reflexivity |].
  intros z Iz. cbn in Iz. destruct Iz as [<- | [<- | Iz]]; [left; reflexivity | right; left; reflexivity |].
  destruct (e_uniform E (ax_nums ax)); [destruct Iz as [<- | []] | destruct Iz]. right; right; left; reflexivity.
Qed.

Lemma analyse_none req vars : analyseVariables E req vars = Ok None -> forall v, In v vars -> has_axes v = false.
Proof.
  unfold analyseVariables. intros R v I. assert (B := find_best_spec vars).
  destruct (find_best 0 vars None) as [[i best] |] eqn:F.
  - bindE R limited Hl. bindE R s Hs. bindE R main Hm. bindE R aux Ha. bindE R ffi Hf. discriminate R.
  - unfold has_axes. apply negb_false_iff, Nat.eqb_eq. exact (B v I).
Qed.

Lemma analyse_keeps req vars a : apart vars -> analyseVariables E req vars = Ok (Some a) ->
  Permutation (a_main a ++ a_aux a ++ a_unused a) (filter has_axes vars).
Proof.
  intros Sp R. destruct (analyse_inv _ _ _ R) as (i & best & limited & s & _ & B & Rb & Hs & Hm & Ha & -> & _).
  assert (P := nth_error_split_perm _ _ _ B).
  assert (Hb : has_axes best = true) by (unfold has_axes; apply negb_true_iff, Nat.eqb_neq; exact Rb).
  assert (Po : Permutation (others s) (filter has_axes vars)).
  { rewrite (sort_loop vars best Sp (nth_error_In _ _ B) Hb _ _ _ (fun x I => Permutation_in x (Permutation_sym P) (or_intror I)) Hs).
    unfold others. cbn [s_main s_aux s_unused app]. rewrite (filter_Permutation has_axes _ _ P). cbn [filter]. rewrite Hb. reflexivity. }
  destruct Sp as (_ & _ & N1 & N2).
  assert (Pm : Permutation (a_main a) (s_main s)).
  { refine (reorder_perm _ _ _ _ Hm). refine (NoDup_sub _ _ (s_aux s ++ s_unused s) _ _ N1). symmetry. exact Po. }
  assert (Pa : Permutation (a_aux a) (s_aux s)).
  { refine (reorder_perm _ _ _ _ Ha). refine (NoDup_sub _ _ (s_main s ++ s_unused s) _ _ N2). rewrite <- Po. apply Permutation_app_swap_app. }
  rewrite Pm, Pa. exact Po.
Qed.

(** fewer variables are left *)
Lemma sort_loop_unused best ids : forall rest (s s' : sorting), forR rest (sort_var best ids) s = Ok s' ->
  (length (s_unused s') <= length (s_unused s) + length rest)%nat.
Proof.
  induction rest as [| v t IH]; intros s s' R; cbn [forR] in R; [injection R as <-; lia |].
  bindE R s1 R1. specialize (IH _ _ R). assert (length (s_unused s1) <= S (length (s_unused s)))%nat; [| cbn; lia].
  destruct (sort_var_in _ _ _ _ _ R1) as [-> | [-> | [-> | [-> | [n ->]]]]]; cbn; rewrite ?app_length; cbn; lia.
Qed.
Lemma analyse_fewer req vars a : analyseVariables E req vars = Ok (Some a) -> (length (a_unused a) < length vars)%nat.
Proof.
  intros R. destruct (analyse_inv _ _ _ R) as (i & best & limited & s & _ & B & Rb & Hs & Hm & Ha & -> & _).
  apply sort_loop_unused in Hs. cbn [s_unused length] in Hs. rewrite app_length, firstn_length, skipn_length in Hs.
  assert (i < length vars)%nat by (apply nth_error_Some; congruence).
  lia.
Qed.
(** and nothing new comes in *)
Definition from (vars : list xvar) (s : sorting) : Prop := incl (s_main s) vars /\ incl (s_aux s) vars /\ incl (s_unused s) vars.
Lemma analyse_from req vars a : analyseVariables E req vars = Ok (Some a) ->
  incl (a_main a) vars /\ incl (a_aux a) vars /\ incl (a_unused a) vars.
Proof.
  intros R. destruct (analyse_inv _ _ _ R) as (i & best & limited & s & _ & B & Rb & Hs & Hm & Ha & -> & _).
  assert (P := nth_error_split_perm _ _ _ B).
  assert (F : from vars s).
  { refine (forR_inv (from vars) _ _ _ _ _ Hs _).
    - intros x s1 s2 Ix Q (F1 & F2 & F3).
      assert (Iv : In x vars) by (apply (Permutation_in x (Permutation_sym P)); right; exact Ix).
      destruct (sort_var_in _ _ _ _ _ Q) as [-> | [-> | [-> | [-> | [n ->]]]]]; (split; [| split]); cbn; auto;
        intros y Iy; apply in_app_iff in Iy as [Iy | [<- | []]]; auto.
    - split; [| split]; cbn; [intros y [<- | []]; exact (nth_error_In _ _ B) | intros y [] | intros y []]. }
  destruct F as (F1 & F2 & F3). split; [| split; [| exact F3]].
  - intros y Iy. apply F1. exact (reorder_in _ _ _ _ Hm Iy).
  - intros y Iy. apply F2. exact (reorder_in _ _ _ _ Ha Iy).
Qed.

(** ** The collector and the loop *)
Lemma collect_some req globals vars c d : collectNAContent E req globals vars = Ok c -> c_na c = Some d ->
  exists a, analyseVariables E req vars = Ok (Some a) /\
    c_main c = a_main a /\ c_aux c = a_aux a /\ c_unused c = a_unused a /\ c_zero c = a_zero a.
Proof.
  unfold collectNAContent. intros R N. bindE R o Ho. destruct o as [a |].
  - exists a. bindE R d1 H1. bindE R d2 H2. bindE R g Hg. bindE R d3 H3. bindE R v Hv. bindE R ax Hax. injection R as <-. auto.
  - injection R as <-. discriminate N.
Qed.
Lemma collect_none req globals vars c : collectNAContent E req globals vars = Ok c -> c_na c = None ->
  analyseVariables E req vars = Ok None /\ c_unused c = [] /\ c_main c = [] /\ c_aux c = [].
Proof.
  unfold collectNAContent. intros R N. bindE R o Ho. destruct o as [a |].
  - bindE R d1 H1. bindE R d2 H2. bindE R g Hg. bindE R d3 H3. bindE R v Hv. bindE R ax Hax. injection R as <-. discriminate N.
  - injection R as <-. auto.
Qed.
Definition content (c : collected num) : list xvar := c_main c ++ c_aux c.

Lemma collect_keeps req globals vars c : apart vars -> collectNAContent E req globals vars = Ok c ->
  Permutation (content c ++ c_unused c) (filter has_axes vars).
Proof.
  intros Sp R. unfold content. destruct (c_na c) as [d |] eqn:N.
  - destruct (collect_some _ _ _ _ _ R N) as (a & Ha & -> & -> & -> & _). rewrite <- app_assoc. exact (analyse_keeps _ _ _ Sp Ha).
  - destruct (collect_none _ _ _ _ R N) as (Ha & -> & -> & ->).
    assert (Q : filter has_axes vars = []); [| rewrite Q; reflexivity].
    assert (Z := analyse_none _ _ Ha). clear - Z. induction vars as [| v t IH]; [reflexivity |]. cbn. rewrite Z by (left; reflexivity).
    apply IH. intros w I. apply Z. right. exact I.
Qed.
Lemma collect_unused_has req globals vars c : apart vars -> collectNAContent E req globals vars = Ok c ->
  filter has_axes (c_unused c) = c_unused c.
Proof.
  intros Sp R. assert (P := collect_keeps _ _ _ _ Sp R).
  assert (I : forall v, In v (c_unused c) -> has_axes v = true).
  { intros v Iv. assert (Iv' : In v (filter has_axes vars)).
    { apply (Permutation_in v P), in_app_iff. right. exact Iv. }
    apply filter_In in Iv'. apply Iv'. }
  clear - I. induction (c_unused c) as [| v t IH]; [reflexivity |]. cbn. rewrite I by (left; reflexivity). f_equal. apply IH.
  intros w Iw. apply I. right. exact Iw.
Qed.
Lemma apart_rest req globals vars c : apart vars -> collectNAContent E req globals vars = Ok c -> apart (c_unused c).
Proof.
  intros Sp R. assert (U := collect_unused_has _ _ _ _ Sp R). assert (P := collect_keeps _ _ _ _ Sp R).
  assert (I : forall v, In v (c_unused c) -> In v vars).
  { intros v Iv. assert (Iv' : In v (filter has_axes vars)); [| apply filter_In in Iv'; apply Iv'].
    apply (Permutation_in v P), in_app_iff. right. exact Iv. }
  destruct Sp as (S1 & S2 & S3 & S4).
  assert (P' : Permutation (filter has_axes vars) (c_unused c ++ content c)) by (rewrite <- P; apply Permutation_app_comm).
  split; [intros v z Iv Iz; exact (S1 v z (I v Iv) (I z Iz)) |].
  split; [intros v w a' b' Iv Iw; exact (S2 v w a' b' (I v Iv) (I w Iw)) |].
  rewrite U. split; [exact (NoDup_sub _ _ _ _ P' S3) | exact (NoDup_sub _ _ _ _ P' S4)].
Qed.
Lemma loop_keeps req globals : forall fuel vars cs, apart vars -> convert_loop E fuel req globals vars = Ok cs ->
  Permutation (flat_map content cs) (filter has_axes vars).
Proof.
  induction fuel as [| n IH]; intros [| v t] cs Sp R; cbn [convert_loop] in R; try (injection R as <-; reflexivity); [discriminate R |].
  bindE R c Hc. bindE R rest Hr. injection R as <-.
  assert (K := collect_keeps _ _ _ _ Sp Hc). rewrite <- K.
  assert (Pr := IH _ _ (apart_rest _ _ _ _ Sp Hc) Hr). rewrite (collect_unused_has _ _ _ _ Sp Hc) in Pr.
  destruct (c_na c) as [d |] eqn:Nc.
  - cbn. rewrite Pr. reflexivity.
  - destruct (collect_none _ _ _ _ Hc Nc) as (_ & Eu & Em & Ea). unfold content. rewrite Em, Ea. cbn. exact Pr.
Qed.
(** each dictionary comes from one collection *)
Lemma loop_each req globals : forall fuel vars cs, convert_loop E fuel req globals vars = Ok cs ->
  forall c, In c cs -> exists vs, incl vs vars /\ collectNAContent E req globals vs = Ok c /\ c_na c <> None.
Proof.
  induction fuel as [| n IH]; intros [| v t] cs R c0 I0; cbn [convert_loop] in R; try (injection R as <-; destruct I0); [discriminate R |].
  bindE R c Hc. bindE R rest Hr. injection R as <-.
  assert (Inc : incl (c_unused c) (v :: t)).
  { destruct (c_na c) as [d |] eqn:Nc; [| destruct (collect_none _ _ _ _ Hc Nc) as (_ & -> & _); intros x []].
    destruct (collect_some _ _ _ _ _ Hc Nc) as (a & Ha & _ & _ & -> & _). apply (analyse_from _ _ _ Ha). }
  assert (K : In c0 rest -> exists vs, incl vs (v :: t) /\ collectNAContent E req globals vs = Ok c0 /\ c_na c0 <> None).
  { intros I. destruct (IH _ _ Hr c0 I) as (vs & A & B & C). exists vs. split; [| auto]. intros x Ix. apply Inc, A, Ix. }
  destruct (c_na c) as [d |] eqn:Nc; [| exact (K I0)].
  destruct I0 as [<- | I0]; [| exact (K I0)]. exists (v :: t). split; [apply incl_refl | split; [exact Hc | congruence]].
Qed.
Lemma loop_fuel req globals : forall fuel fuel' vars, (length vars <= fuel)%nat -> (length vars <= fuel')%nat ->
  convert_loop E fuel req globals vars = convert_loop E fuel' req globals vars.
Proof.
  induction fuel as [| n IH]; intros [| n'] [| v t] L L'; cbn [length] in L, L'; try lia; try reflexivity.
  cbn [convert_loop]. destruct (collectNAContent E req globals (v :: t)) as [c | e] eqn:Hc; [| reflexivity]. cbn [bindR].
  rewrite (IH n' (c_unused c)); [reflexivity | |];
    (destruct (c_na c) as [d |] eqn:Nc;
     [destruct (collect_some _ _ _ _ _ Hc Nc) as (a & Ha & _ & _ & Eu & _); apply analyse_fewer in Ha; rewrite Eu; cbn in Ha; lia
     | destruct (collect_none _ _ _ _ Hc Nc) as (_ & Eu & _); rewrite Eu; cbn; lia]).
Qed.
Lemma loop_nohang req globals : (forall vars, collectNAContent E req globals vars <> Err EHang) ->
  forall fuel vars, (length vars <= fuel)%nat -> convert_loop E fuel req globals vars <> Err EHang.
Proof.
  intros NH. induction fuel as [| n IH]; intros [| v t] L; cbn [length] in L; try lia; try discriminate.
  cbn [convert_loop]. specialize (NH (v :: t)). destruct (collectNAContent E req globals (v :: t)) as [c | e] eqn:Hc; [| cbn; congruence].
  cbn [bindR]. assert (L2 : (length (c_unused c) <= n)%nat).
  { destruct (c_na c) as [d |] eqn:Nc.
    - destruct (collect_some _ _ _ _ _ Hc Nc) as (a & Ha & _ & _ & Eu & _). apply analyse_fewer in Ha. rewrite Eu. cbn in Ha. lia.
    - destruct (collect_none _ _ _ _ Hc Nc) as (_ & Eu & _). rewrite Eu. cbn. lia. }
  specialize (IH _ L2). destruct (convert_loop E n req globals (c_unused c)); cbn; [destruct (c_na c); discriminate | congruence].
Qed.
End Analysis.
