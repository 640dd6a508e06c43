(** C137: the order of the variables in the converted files. *)
From Coq Require Import List NArith ZArith Bool Lia Permutation Sorted.
From Verif Require Import Py.Str Py.Res Py.Num Py.Arith Model.Dict Model.CommonUtils Model.Utils Model.NACore Model.NARead Model.NCWrite
  Model.Normalize Model.Xarray Model.Collector Model.ToXarray Spec.TextSpec Spec.CollectorSpec Spec.ToXarraySpec Spec.ReadSpec Spec.Binary64
  Proofs.StrLemmas Proofs.ReadFrame Proofs.CollectorLemmas Props.CollectorProps Props.AxisProps Props.ToXarrayProps Props.ToXarrayMore Proofs.ReadData Props.AuxSelect.
Import ListNotations.

(** [l] is what is left of [m] when some items are taken out. *)
Inductive left_of {A} : list A -> list A -> Prop :=
| left_none : left_of [] []
| left_keep x l m : left_of l m -> left_of (x :: l) (x :: m)
| left_skip x l m : left_of l m -> left_of l (x :: m).
(** The order of the list [vs] of variables, of which the input is [given]: first
    those with the attribute [att], by its numbers; then all others, in the order
    of the input. *)
Definition ordered_by {num} (att : str) (given vs : list (xvar num)) : Prop :=
  exists l m, vs = l ++ m /\
    (exists zs, map (fun v => n_attr (v_info v) att) l = map (fun z => Some z) zs /\
       Forall2 (fun g p => exists z, g_val g = PInt z /\ p = (z mod 1000)%Z) zs (positions att l)) /\
    StronglySorted Z.lt (positions att l) /\
    (forall v, In v m -> n_attr (v_info v) att = None) /\ left_of m given.

Lemma left_refl {A} (l : list A) : left_of l l.
Proof. induction l; constructor; auto. Qed.
Lemma left_nil {A} (l : list A) : left_of [] l.
Proof. induction l; constructor; auto. Qed.
Lemma left_trans {A} (a b c : list A) : left_of a b -> left_of b c -> left_of a c.
Proof.
  intros P Q. revert a P. induction Q as [| x l m Q IH | x l m Q IH]; intros a P.
  - exact P.
  - inversion P; subst; [apply left_keep | apply left_skip]; auto.
  - apply left_skip. auto.
Qed.
Lemma left_app {A} (a b c d : list A) : left_of a b -> left_of c d -> left_of (a ++ c) (b ++ d).
Proof. intros P Q. induction P; cbn; [exact Q | constructor | constructor]; auto. Qed.
Lemma left_filter {A} (f : A -> bool) l : left_of (filter f l) l.
Proof. induction l as [| x t IH]; cbn; [constructor |]. destruct (f x); constructor; exact IH. Qed.
Lemma left_filter2 {A} (f : A -> bool) l m : left_of l m -> left_of (filter f l) (filter f m).
Proof. intros P. induction P; cbn; [constructor | |]; destruct (f x); try constructor; auto. Qed.
Lemma left_in {A} (l m : list A) x : left_of l m -> In x l -> In x m.
Proof. intros P. induction P; cbn; intuition. Qed.

Section Order.
Context {num : Type} {Num : NumOps num} {Ar : ArithOps num}.
Local Notation xvar := (xvar num).
Variable E : env num.

Definition in_place att (l : list (option xvar)) (k : nat) : Prop :=
  forall i v, nth_error l i = Some (Some v) ->
  exists g z, n_attr (v_info v) att = Some g /\ g_val g = PInt z /\ Z.of_nat (k + i) = (z mod 1000)%Z.
Lemma places att : forall (l : list (option xvar)) k, in_place att l k ->
  (exists zs, map (fun v => n_attr (v_info v) att) (somes l) = map (fun z => Some z) zs /\
     Forall2 (fun g p => exists z, g_val g = PInt z /\ p = (z mod 1000)%Z) zs (positions att (somes l))) /\
  StronglySorted Z.lt (positions att (somes l)) /\ Forall (fun p => (Z.of_nat k <= p)%Z) (positions att (somes l)).
Proof.
  induction l as [| o t IH]; intros k P.
  - split; [exists []; split; constructor | split; constructor].
  - assert (Pt : in_place att t (S k)).
    { intros i v Q. destruct (P (S i) v Q) as (g & z & A & B & C). exists g, z. split; [exact A | split; [exact B |]].
      rewrite <- C. f_equal. lia. }
    destruct (IH (S k) Pt) as ((zs & M & F) & S0 & L).
    assert (L' : Forall (fun p => (Z.of_nat k <= p)%Z) (positions att (somes t))).
    { eapply Forall_impl; [| exact L]. cbn beta. intros a La. lia. }
    destruct o as [v |]; [| exact (conj (ex_intro _ zs (conj M F)) (conj S0 L'))].
    destruct (P 0%nat v eq_refl) as (g & z & A & B & C). rewrite Nat.add_0_r in C.
    assert (Ps : positions att (somes (Some v :: t)) = (z mod 1000)%Z :: positions att (somes t)).
    { change (somes (Some v :: t)) with (v :: somes t). unfold positions. cbn [flat_map]. unfold n_attr in A. rewrite A.
      destruct g as [np [| z' | | |]]; cbn in B; try discriminate B. injection B as ->. reflexivity. }
    rewrite Ps. change (somes (Some v :: t)) with (v :: somes t). split; [exists (g :: zs) | split].
    + split; [cbn [map]; rewrite A, M; reflexivity |]. constructor; [| exact F]. exists z. auto.
    + constructor; [exact S0 |]. eapply Forall_impl; [| exact L]. cbn beta. intros a La. lia.
    + constructor; [lia | exact L'].
Qed.
Lemma reorder_loop_order att : forall vs (st st' : list (option xvar) * list xvar),
  length (fst st) = 1000%nat -> in_place att (fst st) 0 -> (forall v, In v (snd st) -> n_attr (v_info v) att = None) ->
  forR vs (reorder_step att) st = Ok st' ->
  in_place att (fst st') 0 /\ (forall v, In v (snd st') -> n_attr (v_info v) att = None) /\ left_of (snd st') (snd st ++ vs).
Proof.
  induction vs as [| v t IH]; intros st st' L P N R; cbn [forR] in R.
  - injection R as <-. rewrite app_nil_r. split; [exact P | split; [exact N | apply left_refl]].
  - bindE R s1 R1. unfold reorder_step in R1. destruct (n_attr (v_info v) att) as [g |] eqn:A.
    + bindE R1 z Hz. bindE R1 i Hi. injection R1 as <-. destruct (slot_spec _ _ Hi) as [Ei Li].
      assert (P' : in_place att (set_nth (fst st) i (Some v)) 0).
      { intros j w W. destruct (Nat.eq_dec i j) as [<- | Nij].
        - rewrite set_nth_same in W by (rewrite L; exact Li). injection W as <-. exists g, z. split; [exact A |].
          split; [destruct (g_val g); cbn in Hz; congruence | exact Ei].
        - rewrite set_nth_other in W by exact Nij. exact (P j w W). }
      destruct (IH (set_nth (fst st) i (Some v), snd st) st') as (I1 & I2 & I3);
        [cbn [fst]; rewrite set_nth_length; exact L | exact P' | exact N | exact R |].
      split; [exact I1 | split; [exact I2 |]]. cbn [snd] in I3.
      eapply left_trans; [exact I3 |]. apply left_app; [apply left_refl | apply left_skip, left_refl].
    + injection R1 as <-. destruct (IH (fst st, snd st ++ [v]) st') as (I1 & I2 & I3);
        [exact L | exact P | cbn [snd]; intros w W; apply in_app_iff in W as [W | [<- | []]]; auto | exact R |].
      split; [exact I1 | split; [exact I2 |]]. cbn [snd] in I3. rewrite <- app_assoc in I3. exact I3.
Qed.
Lemma reorder_order att (vs vs' given : list xvar) : left_of vs given -> reorder att vs = Ok vs' -> ordered_by att given vs'.
Proof.
  unfold reorder. intros G R. bindE R st R1. injection R as <-.
  destruct (reorder_loop_order att vs (repeat None 1000, []) st) as (P & N & L).
  - apply repeat_length.
  - intros i v V. cbn [fst] in V. apply nth_error_In, repeat_spec in V. discriminate V.
  - intros v [].
  - exact R1.
  - destruct (places att _ _ P) as (Z0 & S0 & _). exists (somes (fst st)), (snd st). split; [reflexivity |].
    split; [exact Z0 | split; [exact S0 | split; [exact N |]]]. exact (left_trans _ _ _ L G).
Qed.

(** the best variable is the first of its shape *)
Definition below (w b : xvar) : Prop := rank w = 0%nat \/ (rank w < rank b)%nat \/ rank w = rank b /\ (size_of w < size_of b)%nat.
Definition first_best (done : list xvar) (b : option (nat * xvar)) : Prop :=
  match b with
  | None => forall w, In w done -> rank w = 0%nat
  | Some (i, b) => nth_error done i = Some b /\ rank b <> 0%nat /\ (forall w, In w (firstn i done) -> below w b) /\
                   forall w, In w done -> (rank w <= rank b)%nat /\ (rank w = rank b -> size_of w <= size_of b)%nat
  end.
Lemma first_best_inv : forall rest done best, first_best done best -> first_best (done ++ rest) (find_best (length done) rest best).
Proof.
  induction rest as [| v t IH]; intros done best I; cbn [find_best]; [rewrite app_nil_r; exact I |].
  replace (done ++ v :: t) with ((done ++ [v]) ++ t) by (rewrite <- app_assoc; reflexivity).
  replace (S (length done)) with (length (done ++ [v])) by (rewrite app_length; cbn; lia).
  apply IH. clear IH.
  assert (Old : forall i b, first_best done (Some (i, b)) -> (rank v <= rank b)%nat /\ (rank v = rank b -> size_of v <= size_of b)%nat -> first_best (done ++ [v]) (Some (i, b))).
  { intros i b (A & B & C & D) Hv. assert (i < length done)%nat by (apply nth_error_Some; congruence). split.
    - rewrite nth_error_app1 by assumption. exact A.
    - split; [exact B |]. split.
      + intros w W. rewrite firstn_app in W. replace (i - length done)%nat with 0%nat in W by lia. cbn [firstn] in W. rewrite app_nil_r in W. auto.
      + intros w W. apply in_app_iff in W as [W | [<- | []]]; auto. }
  assert (New : rank v <> 0%nat -> (forall w, In w done -> below w v) -> first_best (done ++ [v]) (Some (length done, v))).
  { intros Rv Hw. split; [rewrite nth_error_app2, Nat.sub_diag by lia; reflexivity |]. split; [exact Rv |]. split.
    - intros w W. rewrite firstn_app, Nat.sub_diag in W. cbn [firstn] in W. rewrite app_nil_r, firstn_all in W. auto.
    - intros w W. apply in_app_iff in W as [W | [<- | []]]; [| lia]. destruct (Hw w W) as [H | [H | H]]; lia. }
  destruct (Nat.eqb_spec (rank v) 0) as [Z0 | Z0].
  - destruct best as [[i b] |].
    + apply Old; [exact I |]. destruct I as (_ & Rb & _). lia.
    + cbn in *. intros w W. apply in_app_iff in W as [W | [<- | []]]; auto.
  - destruct best as [[i b] |].
    + destruct ((rank b <? rank v)%nat || ((rank v =? rank b)%nat && (size_of b <? size_of v)%nat)) eqn:C.
      * apply New; [exact Z0 |]. intros w W. destruct I as (_ & _ & _ & D). destruct (D w W) as (D1 & D2). unfold below.
        apply orb_true_iff in C as [C | C]; [apply Nat.ltb_lt in C; lia |]. apply andb_true_iff in C as [C1 C2].
        apply Nat.eqb_eq in C1. apply Nat.ltb_lt in C2. lia.
      * apply Old; [exact I |]. apply orb_false_iff in C as [C1 C2]. apply Nat.ltb_ge in C1. split; [exact C1 |]. intros Q.
        rewrite <- Q, Nat.eqb_refl in C2. cbn in C2. apply Nat.ltb_ge in C2. exact C2.
    + apply New; [exact Z0 |]. intros w W. left. exact (I w W).
Qed.
Lemma nats_eqb_eq' : forall a b, nats_eqb a b = true -> a = b.
Proof.
  induction a as [| x a IH]; intros [| y b] Q; cbn in Q; try discriminate Q; [reflexivity |].
  apply andb_true_iff in Q as [Q1 Q2]. apply Nat.eqb_eq in Q1. f_equal; auto.
Qed.
Lemma below_shape w b : rank b <> 0%nat -> below w b -> nats_eqb (shape w) (shape b) = false.
Proof.
  intros Rb H. destruct (nats_eqb (shape w) (shape b)) eqn:Q; [| reflexivity]. apply nats_eqb_eq' in Q. exfalso.
  assert (rank w = rank b) by (unfold rank; rewrite <- (map_length ax_len (v_axes w)), <- (map_length ax_len (v_axes b)); unfold shape in Q; congruence).
  assert (size_of w = size_of b) by (unfold size_of; congruence). destruct H as [H | [H | H]]; lia.
Qed.

(** the sorted variables keep their order *)
Lemma sort_left best ids : forall rest (s s' : sorting), forR rest (sort_var best ids) s = Ok s' ->
  left_of (s_main s') (s_main s ++ rest) /\ left_of (s_aux s') (s_aux s ++ rest) /\ left_of (s_unused s') (s_unused s ++ rest).
Proof.
  induction rest as [| v t IH]; intros s s' R; cbn [forR] in R.
  - injection R as <-. rewrite !app_nil_r. repeat split; apply left_refl.
  - bindE R s1 R1. destruct (IH _ _ R) as (A & B & C).
    assert (K : forall l l1 : list xvar, l1 = l \/ l1 = l ++ [v] -> left_of (l1 ++ t) (l ++ v :: t)).
    { intros l l1 [-> | ->]; [| rewrite <- app_assoc; apply left_refl]. apply left_app; [apply left_refl | apply left_skip, left_refl]. }
    destruct (sort_var_in _ _ _ _ _ R1) as [-> | [-> | [-> | [-> | [n ->]]]]]; cbn [add_main add_aux add_unused s_main s_aux s_unused] in A, B, C;
      (split; [| split]); (eapply left_trans; [eassumption |]); apply K; auto.
Qed.
Lemma sort_no_main best ids : forall rest (s s' : sorting), forR rest (sort_var best ids) s = Ok s' ->
  (forall w, In w rest -> nats_eqb (shape w) (shape best) = false) -> s_main s' = s_main s.
Proof.
  intros rest s s' R H. refine (forR_inv (fun s' => s_main s' = s_main s) rest (sort_var best ids) s s' _ R eq_refl).
  intros v s1 s2 I Q <-. unfold sort_var in Q. rewrite (H v I) in Q. cbn [negb] in Q.
  destruct (mem_str (v_name v) ids); [injection Q as <-; reflexivity |].
  destruct (v_axes v) as [| a [|]]; try (injection Q as <-; reflexivity).
  bindE Q b0 Hb. bindE Q same Hs. destruct (negb same).
  - bindE Q nv Hn. destruct nv as [[| n] |]; injection Q as <-; reflexivity.
  - destruct (only_1020 s1); injection Q as <-; reflexivity.
Qed.
Lemma around {A} (l : list A) i x : nth_error l i = Some x -> l = firstn i l ++ x :: skipn (S i) l.
Proof. revert i. induction l as [| y t IH]; intros [| i] Q; cbn in Q; try discriminate Q; [injection Q as ->; reflexivity |].
  cbn [firstn app]. f_equal. exact (IH _ Q). Qed.
Lemma analyse_order req vars a : analyseVariables E req vars = Ok (Some a) ->
  ordered_by (lit "nasa_ames_var_number") vars (a_main a) /\ ordered_by (lit "nasa_ames_aux_var_number") vars (a_aux a) /\ left_of (a_unused a) vars.
Proof.
  intros R. destruct (analyse_inv E _ _ _ R) as (i & best & limited & s & Fb & B & Rb & Hs & Hm & Ha & -> & _).
  assert (I := first_best_inv vars [] None ltac:(intros w [])). cbn [app length] in I. rewrite Fb in I. destruct I as (_ & _ & Fi & _).
  assert (W := around _ _ _ B). assert (Lf : left_of (firstn i vars ++ skipn (S i) vars) vars).
  { rewrite W at 3. apply left_app; [apply left_refl | apply left_skip, left_refl]. }
  rewrite forR_app in Hs. bindE Hs s1 Hs1.
  assert (M1 : s_main s1 = [best]) by (apply (sort_no_main _ _ _ _ _ Hs1); intros w Iw; apply below_shape; auto).
  destruct (sort_left _ _ _ _ _ Hs1) as (_ & A1 & U1). destruct (sort_left _ _ _ _ _ Hs) as (M2 & A2 & U2). cbn [s_aux s_unused app] in A1, U1.
  rewrite M1 in M2. split; [| split].
  - refine (reorder_order _ _ _ _ _ Hm). eapply left_trans; [exact M2 |]. rewrite W at 2. change ([best] ++ skipn (S i) vars) with ([] ++ best :: skipn (S i) vars).
    apply left_app; [apply left_nil | apply left_refl].
  - refine (reorder_order _ _ _ _ _ Ha). eapply left_trans; [exact A2 |]. eapply left_trans; [| exact Lf]. apply left_app; [exact A1 | apply left_refl].
  - eapply left_trans; [exact U2 |]. eapply left_trans; [| exact Lf]. apply left_app; [exact U1 | apply left_refl].
Qed.
Lemma ordered_wider att (a b vs : list xvar) : left_of a b -> ordered_by att a vs -> ordered_by att b vs.
Proof. intros L (l & m & A & B & C & D & Em). exists l, m. repeat (split; [assumption |]). exact (left_trans _ _ _ Em L). Qed.
Lemma loop_order req globals : forall fuel vars cs, convert_loop E fuel req globals vars = Ok cs -> forall c, In c cs ->
  ordered_by (lit "nasa_ames_var_number") vars (c_main c) /\ ordered_by (lit "nasa_ames_aux_var_number") vars (c_aux c).
Proof.
  induction fuel as [| n IH]; intros [| v t] cs R c0 I0; cbn [convert_loop] in R; try (injection R as <-; destruct I0); [discriminate R |].
  bindE R c Hc. bindE R rest Hr. injection R as <-.
  destruct (c_na c) as [d |] eqn:Nc.
  - destruct (collect_some E _ _ _ _ _ Hc Nc) as (a & Ha & Em & Ea & Eu & _). destruct (analyse_order _ _ _ Ha) as (O1 & O2 & O3).
    destruct I0 as [<- | I0]; [rewrite Em, Ea; auto |]. destruct (IH _ _ Hr c0 I0) as (P1 & P2). rewrite Eu in P1, P2.
    split; eapply ordered_wider; eauto.
  - destruct (collect_none E _ _ _ _ Hc Nc) as (_ & Eu & _). destruct (IH _ _ Hr c0 I0) as (P1 & P2). rewrite Eu in P1, P2.
    split; (eapply ordered_wider; [apply left_nil | eassumption]).
Qed.

(** main variables have the shape of the best one, auxiliary variables do not *)
Lemma sort_shapes best ids : forall rest (s s' : sorting), forR rest (sort_var best ids) s = Ok s' ->
  ((forall w, In w (s_main s) -> shape w = shape best) /\
   (forall w, In w (s_aux s) -> shape w <> shape best /\ length (v_axes w) = 1%nat)) ->
  (forall w, In w (s_main s') -> shape w = shape best) /\
  (forall w, In w (s_aux s') -> shape w <> shape best /\ length (v_axes w) = 1%nat).
Proof.
  intros rest s s' R.
  refine (forR_inv (fun s => (forall w, In w (s_main s) -> shape w = shape best) /\
    (forall w, In w (s_aux s) -> shape w <> shape best /\ length (v_axes w) = 1%nat)) rest (sort_var best ids) s s' _ R).
  intros v s1 s2 I Q (M & A). unfold sort_var in Q.
  destruct (mem_str (v_name v) ids); [injection Q as <-; auto |].
  destruct (nats_eqb (shape v) (shape best)) eqn:Sh; cbn [negb] in Q.
  - bindE Q same Hs. destruct same; injection Q as <-; [| auto]. cbn [add_main s_main s_aux]. split; [| exact A].
    intros w W. apply in_app_iff in W as [W | [<- | []]]; [auto | exact (nats_eqb_eq' _ _ Sh)].
  - assert (Ne : shape v <> shape best).
    { intros C. rewrite C in Sh. clear - Sh. induction (shape best) as [| x t IH]; [discriminate Sh |]. cbn in Sh. rewrite Nat.eqb_refl in Sh. auto. }
    destruct (v_axes v) as [| a [|]] eqn:Va; try (injection Q as <-; auto).
    bindE Q b0 Hb. bindE Q same Hs. destruct (negb same).
    + bindE Q nv Hn. destruct nv as [[| n] |]; injection Q as <-; auto.
    + destruct (only_1020 s1); injection Q as <-; [auto |]. cbn [add_aux s_main s_aux]. split; [exact M |].
      intros w W. apply in_app_iff in W as [W | [<- | []]]; [auto |]. rewrite Va. auto.
Qed.
Lemma analyse_shapes req vars a : analyseVariables E req vars = Ok (Some a) ->
  exists best, In best vars /\ has_axes best = true /\ (forall w, In w (a_main a) -> shape w = shape best) /\
    (forall w, In w (a_aux a) -> shape w <> shape best /\ length (v_axes w) = 1%nat).
Proof.
  intros R. destruct (analyse_inv E _ _ _ R) as (i & best & limited & s & _ & B & Rb & Hs & Hm & Ha & _).
  destruct (sort_shapes _ _ _ _ _ Hs) as (M & A).
  { cbn [s_main s_aux]. split; [intros w [<- | []]; reflexivity | intros w []]. }
  exists best. split; [exact (nth_error_In _ _ B) |]. split; [unfold has_axes; apply negb_true_iff, Nat.eqb_neq; exact Rb |].
  split; intros w W; [apply M, (reorder_in _ _ _ _ Hm W) | apply A, (reorder_in _ _ _ _ Ha W)].
Qed.
End Order.

Section Unique.
Context {num : Type}.
Local Notation xvar := (xvar num).
Definition has_att (att : str) (v : xvar) : bool := match n_attr (v_info v) att with Some _ => true | None => false end.
Lemma sorted_unique (att : str) : forall l l' : list xvar, Permutation l l' ->
  length (positions att l) = length l -> length (positions att l') = length l' ->
  StronglySorted Z.lt (positions att l) -> StronglySorted Z.lt (positions att l') -> l = l'.
Proof.
  assert (One : forall v : xvar, (length (positions att [v]) <= 1)%nat).
  { intros v. unfold positions. cbn. destruct (lookup att (n_attrs (v_info v))) as [[np [| z | | |]] |]; cbn; lia. }
  assert (Le : forall l : list xvar, (length (positions att l) <= length l)%nat).
  { induction l as [| v t IH]; [cbn; lia |]. change (v :: t) with ([v] ++ t). rewrite positions_app, !app_length. specialize (One v). cbn [length]. lia. }
  assert (Cut : forall v (t : list xvar), length (positions att (v :: t)) = length (v :: t) ->
    (exists p, positions att [v] = [p]) /\ length (positions att t) = length t).
  { intros v t. change (v :: t) with ([v] ++ t). rewrite positions_app, !app_length. specialize (One v). specialize (Le t). cbn [length]. intros Q.
    split; [| lia]. destruct (positions att [v]) as [| p [|]]; cbn in *; try lia. eauto. }
  induction l as [| v t IH]; intros l' P L L' S0 S1; [apply Permutation_nil in P; subst; reflexivity |].
  destruct l' as [| w u]; [apply Permutation_sym, Permutation_nil in P; discriminate P |].
  destruct (Cut _ _ L) as ((p & Hp) & Lt). destruct (Cut _ _ L') as ((q & Hq) & Lu).
  assert (S0' := S0). assert (S1' := S1).
  change (v :: t) with ([v] ++ t) in S0. change (w :: u) with ([w] ++ u) in S1. rewrite positions_app, Hp in S0. rewrite positions_app, Hq in S1. cbn [app] in S0, S1.
  apply StronglySorted_inv in S0 as (S0 & F0). apply StronglySorted_inv in S1 as (S1 & F1). rewrite Forall_forall in F0, F1.
  assert (Pos : forall x y (l : list xvar), In x l -> positions att [x] = [y] -> In y (positions att l)).
  { intros x y l Ix Hx. apply in_split in Ix as (a & b & ->). change (x :: b) with ([x] ++ b). rewrite !positions_app, Hx, !in_app_iff. right. left. left. reflexivity. }
  assert (v = w).
  { assert (Iv : In v (w :: u)) by (apply (Permutation_in v P); left; reflexivity).
    assert (Iw : In w (v :: t)) by (apply (Permutation_in w (Permutation_sym P)); left; reflexivity).
    destruct Iv as [-> | Iv]; [reflexivity |]. destruct Iw as [<- | Iw]; [reflexivity |]. exfalso.
    assert (A := F1 p (Pos _ _ _ Iv Hp)). assert (B := F0 q (Pos _ _ _ Iw Hq)). lia. }
  subst w. f_equal. apply IH; auto. apply Permutation_cons_inv in P. exact P.
Qed.
Lemma filter_none {A} (f : A -> bool) l : (forall x, In x l -> f x = false) -> filter f l = [].
Proof. induction l as [| x t IH]; intros H; [reflexivity |]. cbn. rewrite (H x) by (left; reflexivity). apply IH. intros y I. apply H. right. exact I. Qed.
Lemma filter_all {A} (f : A -> bool) l : (forall x, In x l -> f x = true) -> filter f l = l.
Proof. induction l as [| x t IH]; intros H; [reflexivity |]. cbn. rewrite (H x) by (left; reflexivity). f_equal. apply IH. intros y I. apply H. right. exact I. Qed.
(** the numbered variables of an ordered list *)
Lemma ordered_numbered att (given vs want : list xvar) : ordered_by att given vs -> Permutation (filter (has_att att) vs) want ->
  length (positions att want) = length want -> StronglySorted Z.lt (positions att want) ->
  exists m, vs = want ++ m /\ (forall v, In v m -> has_att att v = false) /\ left_of m given.
Proof.
  intros (l & m & -> & (zs & Z1 & Z2) & S0 & N & L) P Lw Sw. exists m.
  assert (Nm : forall v, In v m -> has_att att v = false) by (intros v I; unfold has_att; rewrite (N v I); reflexivity).
  assert (Nl : forall v, In v l -> has_att att v = true).
  { intros v I. apply (in_map (fun v => n_attr (v_info v) att)) in I. rewrite Z1 in I. apply in_map_iff in I as (z & Hz & _). unfold has_att. rewrite <- Hz. reflexivity. }
  rewrite filter_app, (filter_all _ _ Nl), (filter_none _ _ Nm), app_nil_r in P.
  assert (Ll : length (positions att l) = length l).
  { assert (Lz : length zs = length (positions att l)) by (clear - Z2; induction Z2; cbn; congruence).
    rewrite <- Lz, <- (map_length (fun z => Some z) zs), <- Z1, map_length. reflexivity. }
  rewrite (sorted_unique att l want P Ll Lw S0 Sw). auto.
Qed.
End Unique.

(** ** C137 *)
(** In every file, the main variables that have a number from an earlier NASA Ames
    file come first, by that number, and all others follow in the order in which
    they were given; so do the auxiliary variables.  (Numbers are places in a list
    of 1000: a negative number counts from its end.) *)
Theorem C137_order : forall num (Num : NumOps num) (Ar : ArithOps num) (E : env num) req globals (vars : list (xvar num)) cs c,
  convert E req globals vars = Ok (Some cs) -> In c cs ->
  ordered_by (lit "nasa_ames_var_number") (data_vars vars) (c_main c) /\
  ordered_by (lit "nasa_ames_aux_var_number") (data_vars vars) (c_aux c).
Proof.
  intros num Num Ar E req globals xr cs c R I. assert (R' := R).
  destruct (convert_some E _ _ _ _ R) as (vars & vars' & c0 & rest & M & O & C & N & L & ->).
  destruct (prepared _ _ _ M O) as (F & _ & _).
  assert (Ov : ordered_by (lit "nasa_ames_var_number") vars' (c_main c) /\ ordered_by (lit "nasa_ames_aux_var_number") vars' (c_aux c)).
  { destruct (c_na c0) as [d |] eqn:Nc; [| congruence].
    destruct (collect_some E _ _ _ _ _ C Nc) as (a & Ha & Em & Ea & Eu & _). destruct (analyse_order E _ _ _ Ha) as (O1 & O2 & O3).
    destruct I as [<- | I]; [rewrite Em, Ea; auto |]. destruct (loop_order E _ _ _ _ _ L c I) as (P1 & P2). rewrite Eu in P1, P2.
    split; eapply ordered_wider; eauto. }
  assert (Has : forall v, In v (c_main c) \/ In v (c_aux c) -> has_axes v = true).
  { destruct (convert_each E _ _ _ _ _ R' I) as (vs & Cv & Nn & _). destruct (c_na c) as [d |] eqn:Nc; [| congruence].
    destruct (collect_some E _ _ _ _ _ Cv Nc) as (a & Ha & -> & -> & _). destruct (analyse_shapes E _ _ _ Ha) as (best & _ & Hb & Am & Aa).
    intros v [W | W].
    - specialize (Am v W). unfold has_axes in *. assert (length (v_axes v) = length (v_axes best)) as ->; [| exact Hb].
      rewrite <- (map_length ax_len (v_axes v)), <- (map_length ax_len (v_axes best)). unfold shape in Am. congruence.
    - unfold has_axes. destruct (Aa v W) as (_ & ->). reflexivity. }
  assert (K : forall att vs, ordered_by att vars' vs -> (forall v, In v vs -> has_axes v = true) -> ordered_by att (data_vars xr) vs).
  { intros att vs (l & m & A & B & D & G & H) Hv. exists l, m. repeat (split; [assumption |]). rewrite <- F.
    rewrite <- (filter_all has_axes m); [apply left_filter2, H |]. intros v Iv. apply Hv. rewrite A. apply in_app_iff. right. exact Iv. }
  split; apply K; try apply Ov; intros v Iv; apply Has; auto.
Qed.
Print Assumptions C137_order.

Section Back.
Context {num : Type} {Num : NumOps num} {Ar : ArithOps num}.
Local Notation xvar := (xvar num).
Lemma converted_attrs kind number fold ren info values axes i (v : xvar) other :
  convertVariable kind number fold ren info values axes i = Ok v ->
  other <> number -> other <> lit "title" -> other <> lit "long_name" -> other <> lit "units" -> n_attr (v_info v) other = None.
Proof.
  unfold convertVariable. intros R N0 N1 N2 N3. bindE R w Hw. bindE R vals Hvals. bindE R scal Hs.
  destruct (array_shape vals) as [sh |]; [| discriminate R]. destruct (nats_eqb sh (map ax_len axes)); [| discriminate R]. cbn [negb] in R. cbv zeta in R. injection R as <-.
  unfold n_attr. cbn [v_info n_attrs]. rewrite (dset_other number), (dset_other (lit "title")), (dset_other (lit "long_name")) by congruence.
  destruct (i_units w) as [[| ch t] |]; try reflexivity. cbn [lookup]. destruct (str_eqb _ _) eqn:Q; [| reflexivity].
  apply str_eqb_eq in Q. exfalso. apply N3. (exact Q || exact (eq_sym Q)).
Qed.
(** the converted variables with number [att] *)
Lemma numbers_sorted att : forall k (l : list xvar) i, (i + k <= 1000)%nat ->
  Forall2 (fun i v => n_attr (v_info v) att = Some (gint (Z.of_nat i))) (seq i k) l ->
  positions att l = map Z.of_nat (seq i k).
Proof.
  induction k as [| k IH]; intros l i Le F; inversion F as [| ? v ? t A B E1 E2]; subst; [reflexivity |].
  change (positions att (v :: t)) with (positions att ([v] ++ t)). rewrite positions_app. cbn [seq map]. change (Z.of_nat i :: map Z.of_nat (seq (S i) k)) with ([Z.of_nat i] ++ map Z.of_nat (seq (S i) k)).
  rewrite (IH t (S i)) by (lia || exact B). f_equal. unfold positions. cbn [flat_map]. unfold n_attr in A. rewrite A. cbn [gint app]. rewrite Z.mod_small by lia. reflexivity.
Qed.
Lemma seq_sorted : forall k i, StronglySorted Z.lt (map Z.of_nat (seq i k)).
Proof.
  induction k as [| k IH]; intros i; cbn [seq map]; constructor; [apply IH |]. apply Forall_forall. intros z Z. apply in_map_iff in Z as (j & <- & J).
  apply in_seq in J. lia.
Qed.
Lemma sorted_nodup (l : list Z) : StronglySorted Z.lt l -> NoDup l.
Proof. induction 1 as [| x t S0 IH F]; constructor; [| exact IH]. intros C. rewrite Forall_forall in F. specialize (F x C). lia. Qed.
Lemma NoDup_perm {A} (l m : list A) : Permutation l m -> NoDup m -> NoDup l.
Proof. intros P. apply Permutation_NoDup. symmetry. exact P. Qed.
Lemma positions_filter att (f : xvar -> bool) l : NoDup (positions att l) -> NoDup (positions att (filter f l)).
Proof. exact (NoDup_sub _ _ _ _ (filter_perm f l)). Qed.
Lemma positions_none att (l : list xvar) : (forall v, In v l -> n_attr (v_info v) att = None) -> positions att l = [].
Proof.
  induction l as [| v t IH]; intros H; [reflexivity |]. change (v :: t) with ([v] ++ t). rewrite positions_app, IH by (intros w W; apply H; right; exact W).
  rewrite app_nil_r. unfold positions. cbn [flat_map]. assert (Q := H v (or_introl eq_refl)). unfold n_attr in Q. rewrite Q. reflexivity.
Qed.
Lemma filter_perm2 {A} (f : A -> bool) l m : Permutation l m -> Permutation (filter f l) (filter f m).
Proof. apply filter_Permutation. Qed.
End Back.

(** A NASA Ames file is converted and its variables are given back in any order.
    If one file is made of them, and no variable has the name of an axis, its
    main variables are those of the first file in their order; and so are its
    auxiliary variables, or else all variables have become main variables. *)
Theorem C137_back : forall num (Num : NumOps num) (Ar : ArithOps num) (E : env num) req globals (s : settings (num := num)) d o ws c,
  toXarray s d = Ok o -> t_vars s = SAll -> t_aux s = SAll ->
  (length (o_vars o) <= 1000)%nat -> (length (o_aux o) <= 1000)%nat ->
  Permutation ws (o_vars o ++ o_aux o) -> (forall v, In v ws -> is_dimension ws v = false) ->
  convert E req globals ws = Ok (Some [c]) ->
  exists m, c_main c = o_vars o ++ m /\
    (m = [] /\ c_aux c = o_aux o \/ c_aux c = [] /\ Permutation m (o_aux o) /\ left_of m ws).
Proof.
  intros num Num Ar E req globals s d o ws c X Sv Sa Lv La P Nd R.
  destruct (toXarray_inv _ _ _ X) as (ffi & ren & axes & is & js & _ & _ & _ & _ & Hs & Hv & Hx & _ & Hj).
  set (am := lit "nasa_ames_var_number") in *. set (aa := lit "nasa_ames_aux_var_number") in *.
  (* what the converted variables are *)
  assert (Fv := mapR_Forall2 _ _ _ Hv). assert (Fx := mapR_Forall2 _ _ _ Hx).
  assert (Vv : forall v, In v (o_vars o) -> v_axes v = axes /\ has_att am v = true /\ n_attr (v_info v) aa = None).
  { intros v I. destruct (Forall2_in_r _ _ _ _ Fv I) as (i & _ & Hi). destruct (main_inv _ _ _ _ _ _ Hi) as (mi & sc & vals & _ & _ & _ & _ & _ & A & B).
    split; [exact A |]. split; [unfold has_att, am; rewrite B; reflexivity |].
    unfold convertMain in Hi. apply (converted_attrs _ _ _ _ _ _ _ _ _ aa Hi); intros Q; vm_compute in Q; discriminate Q. }
  assert (Vx : forall v, In v (o_aux o) -> v_axes v = firstn 1 axes /\ has_att aa v = true /\ n_attr (v_info v) am = None).
  { intros v I. destruct (Forall2_in_r _ _ _ _ Fx I) as (i & _ & Hi). unfold convertAux in Hi.
    destruct (convertVariable_inv _ _ _ _ _ _ _ _ _ Hi) as (w & vals & scal & _ & _ & _ & _ & _ & A & _ & _ & B & _);
      try (intros Q; vm_compute in Q; discriminate Q).
    split; [exact A |]. split; [unfold has_att, aa; rewrite B; reflexivity |].
    apply (converted_attrs _ _ _ _ _ _ _ _ _ am Hi); intros Q; vm_compute in Q; discriminate Q. }
  assert (Pm : positions am (o_vars o) = map Z.of_nat (seq 0 (length (o_vars o)))).
  { rewrite Sv in Hs. cbn in Hs. destruct (attr d kNV) as [| nv | | |]; try discriminate Hs. injection Hs as <-. unfold range in Fv.
    assert (L := Forall2_len _ _ _ Fv). rewrite seq_length in L. rewrite L in Fv. apply numbers_sorted; [lia |].
    clear - Fv. revert Fv. generalize (seq 0 (length (o_vars o))). intros q Fv. induction Fv as [| i v l l' H F IH]; constructor; [| exact IH]. destruct (main_inv _ _ _ _ _ _ H) as (mi & sc & vals & _ & _ & _ & _ & _ & _ & B). exact B. }
  assert (Pa : positions aa (o_aux o) = map Z.of_nat (seq 0 (length (o_aux o)))).
  { destruct Hj as [((n & En & Ln) & Hj) | (_ & ->)]; [| cbn in Hx; injection Hx as <-; reflexivity].
    rewrite Sa in Hj. cbn in Hj. rewrite En in Hj. injection Hj as <-. unfold range in Fx.
    assert (L := Forall2_len _ _ _ Fx). rewrite seq_length in L. rewrite L in Fx. apply numbers_sorted; [lia |].
    clear - Fx. revert Fx. generalize (seq 0 (length (o_aux o))). intros q Fx. induction Fx as [| i v l l' H F IH]; constructor; [| exact IH]. unfold convertAux in H.
    destruct (convertVariable_inv _ _ _ _ _ _ _ _ _ H) as (w & vals & scal & _ & _ & _ & _ & _ & _ & _ & _ & B & _);
      try (intros Q; vm_compute in Q; discriminate Q). exact B. }
  assert (Am : forall v, In v ws -> v_axes v = axes \/ v_axes v = firstn 1 axes).
  { intros v I. apply (Permutation_in v P), in_app_iff in I as [I | I]; [left; apply Vv, I | right; apply Vx, I]. }
  (* there is an axis *)
  assert (R' := R). destruct (convert_each E _ _ _ _ _ R' (or_introl eq_refl)) as (vs & Cv & Nn & Iv).
  destruct (c_na c) as [na |] eqn:Nc; [| congruence]. destruct (collect_some E _ _ _ _ _ Cv Nc) as (a & Ha & Em & Ea & _).
  destruct (analyse_shapes E _ _ _ Ha) as (best & Ib & Hb & Shm & Sha). rewrite <- Em in Shm. rewrite <- Ea in Sha. clear Em Ea Ha Cv.
  specialize (Iv best Ib Hb). assert (Nx : axes <> []).
  { intros ->. destruct (Am best Iv) as [Q | Q]; unfold has_axes in Hb; rewrite Q in Hb; discriminate Hb. }
  assert (Hax : forall v, In v ws -> has_axes v = true).
  { intros v I. unfold has_axes. destruct axes as [| x t]; [congruence |]. destruct (Am v I) as [-> | ->]; reflexivity. }
  assert (Dv : data_vars ws = ws).
  { unfold data_vars. apply filter_all. intros v I. rewrite (Hax v I), (Nd v I). reflexivity. }
  assert (Pws : forall att, positions att (o_vars o) = [] \/ positions att (o_aux o) = [] ->
    NoDup (positions att (o_vars o)) -> NoDup (positions att (o_aux o)) -> NoDup (positions att (filter has_axes ws))).
  { intros att Em N1 N2. apply positions_filter. refine (NoDup_perm _ _ (positions_perm att _ _ P) _). rewrite positions_app.
    destruct Em as [-> | ->]; [exact N2 | rewrite app_nil_r; exact N1]. }
  assert (Sep : separate ws).
  { split; [| split; [| split]].
    - intros v z n I1 I2 _ Hz. rewrite (Hax z I2) in Hz. discriminate Hz.
    - intros v w a1 b1 I1 I2 V1 V2 _. destruct axes as [| x t]; [congruence |].
      assert (a1 = x) as -> by (destruct (Am v I1) as [Q | Q]; rewrite V1 in Q; injection Q as -> ; reflexivity).
      assert (b1 = x) as -> by (destruct (Am w I2) as [Q | Q]; rewrite Q in V2; injection V2 as <-; reflexivity).
      auto.
    - apply (Pws am); [right; apply positions_none; intros v I; apply Vx, I | rewrite Pm; apply sorted_nodup, seq_sorted |].
      rewrite (positions_none am); [constructor | intros v I; apply Vx, I].
    - apply (Pws aa); [left; apply positions_none; intros v I; apply Vv, I | | rewrite Pa; apply sorted_nodup, seq_sorted].
      rewrite (positions_none aa); [constructor | intros v I; apply Vv, I]. }
  assert (K := C49_partial _ _ _ E _ _ _ _ Sep R). cbn [flat_map] in K. rewrite app_nil_r, Dv in K.
  assert (Kin : forall v, In v (c_main c ++ c_aux c) -> In v ws) by (intros v; apply (Permutation_in v K)).
  destruct (C137_order _ _ _ E _ _ _ _ _ R (or_introl eq_refl)) as (Om & Oa). rewrite Dv in Om, Oa. fold am in Om. fold aa in Oa.
  (* no variable of the file has become auxiliary *)
  assert (Na : forall v, In v (c_aux c) -> In v (o_aux o)).
  { intros v I. assert (Iw : In v ws) by (apply Kin, in_app_iff; right; exact I). destruct (Sha v I) as (Ns & L1).
    apply (Permutation_in v P), in_app_iff in Iw as [Iw | Iw]; [exfalso | exact Iw]. apply Ns.
    destruct (Vv v Iw) as (Q & _). rewrite Q in L1. destruct axes as [| x [|]]; try discriminate L1. unfold shape. rewrite Q.
    destruct (Am best Iv) as [-> | ->]; reflexivity. }
  assert (Hm : forall v, In v ws -> has_att am v = true <-> In v (o_vars o)).
  { intros v I. split; [| intros W; apply Vv, W]. intros W. apply (Permutation_in v P), in_app_iff in I as [I | I]; [exact I |].
    destruct (Vx v I) as (_ & _ & Q). unfold has_att in W. rewrite Q in W. discriminate W. }
  assert (F1 : Permutation (filter (has_att am) (c_main c)) (o_vars o)).
  { assert (Q := filter_perm2 (has_att am) _ _ K). rewrite (filter_perm2 (has_att am) _ _ P), !filter_app in Q.
    rewrite (filter_none _ (o_aux o)), (filter_all _ (o_vars o)), (filter_none _ (c_aux c)), !app_nil_r in Q.
    - exact Q.
    - intros v I. unfold has_att. destruct (Vx v (Na v I)) as (_ & _ & ->). reflexivity.
    - intros v I. apply Vv, I.
    - intros v I. unfold has_att. destruct (Vx v I) as (_ & _ & ->). reflexivity. }
  destruct (ordered_numbered am ws (c_main c) (o_vars o) Om F1) as (m & E1 & Nm & Lm).
  { rewrite Pm, map_length, seq_length. reflexivity. }
  { rewrite Pm. apply seq_sorted. }
  exists m. split; [exact E1 |].
  assert (Pr : Permutation (m ++ c_aux c) (o_aux o)).
  { assert (Q := Permutation_trans K P). rewrite E1, <- app_assoc in Q. apply (Permutation_app_inv_l (o_vars o)). exact Q. }
  destruct (c_aux c) as [| x t] eqn:Ca; [right | left].
  - rewrite app_nil_r in Pr. auto.
  - assert (m = []) as ->.
    { destruct m as [| y m]; [reflexivity | exfalso].
      assert (Iy : In y (o_aux o)) by (apply (Permutation_in y Pr); left; reflexivity).
      assert (Ix : In x (o_aux o)) by (apply Na; left; reflexivity).
      destruct (Sha x (or_introl eq_refl)) as (Ns & _). apply Ns. rewrite <- (Shm y) by (rewrite E1; apply in_app_iff; right; left; reflexivity).
      unfold shape. destruct (Vx x Ix) as (-> & _). destruct (Vx y Iy) as (-> & _). reflexivity. }
    split; [reflexivity |]. cbn [app] in Pr.
    assert (F2 : Permutation (filter (has_att aa) (x :: t)) (o_aux o)).
    { rewrite filter_all; [exact Pr |]. intros v I. apply Vx, Na, I. }
    destruct (ordered_numbered aa ws (x :: t) (o_aux o) Oa F2) as (m' & E2 & _).
    { rewrite Pa, map_length, seq_length. reflexivity. }
    { rewrite Pa. apply seq_sorted. }
    rewrite E2 in Pr |- *. destruct m' as [| y m']; [rewrite app_nil_r; reflexivity | exfalso].
    apply Permutation_length in Pr. rewrite app_length in Pr. cbn [length] in Pr. lia.
Qed.
Print Assumptions C137_back.

(** *** Concrete variables *)
Definition num_z (n : str) (atts : list (str * gval Z)) : xvar Z := var n atts [xs] (data [1; 2; 3; 4]%Z).
Definition nr (z : Z) : list (str * gval Z) := [(lit "nasa_ames_var_number", gint z)].
Definition mains (r : Res (option (list (collected Z)))) : list (list str) :=
  match r with Ok (Some cs) => map (fun c => map v_name (c_main c)) cs | _ => [] end.
Example C137_order_example :
  mains (convert env_Z None [] [num_z (lit "p") []; num_z (lit "c") (nr 2); num_z (lit "q") []; num_z (lit "a") (nr 0); num_z (lit "z") (nr (-1)); num_z (lit "b") (nr 1)])
    = [map lit ["a"; "b"; "c"; "z"; "p"; "q"]%pylit] /\
  convert env_Z None [] [num_z (lit "a") (nr 1000)] = Err EIndexError.
Proof. vm_compute. auto. Qed.
(** The two variables of a file, and the two kinds of variables of another one. *)
Definition backwards (content : str) (e : env b64) : Res (list (list str * list str)) :=
  (do cd <- read_file (num := b64) content 0; do o <- toXarray plain_settings (snd cd);
   do cs <- convert e None [] (rev (o_vars o ++ o_aux o));
   Ok (match cs with Some cs => map (fun c => (map v_name (c_main c), map v_name (c_aux c))) cs | None => [] end))%res.

Definition f_both : str := unlines (map lit
  ["25 2010"; "A, B"; "Org"; "Src"; "Mission"; "1 1"; "1999 01 01 2000 02 02"; "1 10"; "3"; "3"; "1 2 3"; "lon (m)"; "height (m)";
   "2"; "1 1"; "-9 -9"; "wind (K)"; "dew (K)"; "2"; "1 1"; "-9 -9"; "flag (1)"; "count (1)"; "0"; "0";
   "0 7 8"; "1 2 3"; "4 5 6"; "10 17 18"; "1 2 3"; "4 5 6"; "20 27 28"; "1 2 3"; "4 5 6"; "30 37 38"; "1 2 3"; "4 5 6"]%pylit).
Example C137_back_example : backwards f_two env_b = Ok [(map lit ["temp"; "3he"]%pylit, [])] /\ backwards f_aux env_b = Ok [(map lit ["temp"; "flag"]%pylit, [])] /\
  backwards f_both env_b = Ok [(map lit ["wind"; "dew"]%pylit, map lit ["flag"; "count"]%pylit)].
Proof. vm_compute. auto. Qed.
Example C137_conditions : exists d o c, read_file (num := b64) f_both 0 = Ok (C2010, d) /\ toXarray plain_settings d = Ok o /\
  length (o_vars o) = 2%nat /\ length (o_aux o) = 2%nat /\
  (forall v, In v (rev (o_vars o ++ o_aux o)) -> is_dimension (rev (o_vars o ++ o_aux o)) v = false) /\
  convert env_b None [] (rev (o_vars o ++ o_aux o)) = Ok (Some [c]).
Proof.
  set (r := read_file (num := b64) f_both 0).
  assert (K : match r with
              | Ok (C2010, d) => match toXarray plain_settings d with
                 | Ok o => (length (o_vars o), length (o_aux o), forallb (fun v => negb (is_dimension (rev (o_vars o ++ o_aux o)) v)) (rev (o_vars o ++ o_aux o))) = (2%nat, 2%nat, true) /\
                    match convert env_b None [] (rev (o_vars o ++ o_aux o)) with Ok (Some [c]) => True | _ => False end
                 | Err _ => False end
              | _ => False end) by (vm_compute; auto).
  destruct r as [[k d] |]; [| destruct K]. destruct k; try (destruct K; fail). exists d.
  destruct (toXarray plain_settings d) as [o |]; [| destruct K]. exists o. destruct K as (K1 & K2).
  destruct (convert env_b None [] (rev (o_vars o ++ o_aux o))) as [[[| c [|]] |] |] eqn:Ec; try (destruct K2; fail). exists c.
  injection K1 as A B C. rewrite forallb_forall in C. split; [reflexivity |]. split; [reflexivity |]. split; [exact A |]. split; [exact B |].
  split; [| reflexivity]. intros v I. apply negb_true_iff, C, I.
Qed.
