(** C56: the abbreviated axes of a converted dictionary (na_content_collector.py
    [_appendAxisDefinition] and na_file_2010.py [_normalizeIndVars]). *)
From Coq Require Import List NArith ZArith Bool Lia.
From Verif Require Import Py.Str Py.Res Py.Num Py.Arith Model.Dict Model.NCWrite Model.Normalize Model.Xarray Model.Collector Spec.CollectorSpec
  Spec.ZNum Spec.TextSpec Spec.Binary64 Proofs.StrLemmas Proofs.NumLemmas Proofs.ReadFrame Proofs.CollectorLemmas Proofs.CollectorFrame
  Props.CollectorProps Props.NormalizeProps.
Import ListNotations.

Section Axis.
Context {num : Type} {Num : NumOps num} {Ar : ArithOps num}.
Local Notation axis := (axis num).
Local Notation na := (na num).
Local Notation pyv := (pyv num).

Lemma push_inv (d d' : na) k v l : push d k v = Ok d' -> attr d k = PList l ->
  attr d' k = PList (l ++ [v]) /\ forall k', k' <> k -> attr d' k' = attr d k'.
Proof.
  unfold push. intros R A. rewrite A in R. cbn in R. injection R as <-. split; [apply attr_upd |].
  intros k' N. apply attr_upd_other. congruence.
Qed.

(** The entries NXDEF, DX and X of one axis. *)
Definition entry (ax : axis) (nd : nat) (dx : pyv) (x : list pyv) : Prop :=
  (nd = ax_len ax /\ x = ax_items ax) \/
  (nd = 3%nat /\ (3 < ax_len ax)%nat /\ ax_time ax = None /\ x = map PNum (firstn 3 (ax_vals ax)) /\
   exists incr, dx = PNum incr /\ interval (ax_vals ax) 0 1 = Ok incr /\ uniform incr (ax_vals ax) = true).
Lemma append_inv ax (d d' : na) ln ld lx lX lN :
  attr d kNX = PList ln -> attr d kNXDEF = PList ld -> attr d kDX = PList lx -> attr d kX = PList lX -> attr d kXNAME = PList lN ->
  appendAxisDefinition ax d = Ok d' ->
  exists nd dx x name, entry ax nd dx x /\ attr d' kNX = PList (ln ++ [PInt (Z.of_nat (ax_len ax))]) /\
    attr d' kNXDEF = PList (ld ++ [PInt (Z.of_nat nd)]) /\ attr d' kDX = PList (lx ++ [dx]) /\ attr d' kX = PList (lX ++ [PList x]) /\
    attr d' kXNAME = PList (lN ++ [PStr name]) /\
    (ax_time ax <> None \/ uniform (match interval (ax_vals ax) 0 1 with Ok i => i | Err _ => num_of_Z 0 end) (ax_vals ax) = false -> nd = ax_len ax /\ x = ax_items ax) /\
    getBestName (ax_info ax) = Ok name /\ (dx = PInt 0 \/ exists i, dx = PNum i).
Proof.
  intros A1 A2 A3 A4 A5 R. unfold appendAxisDefinition in R. cbv zeta in R.
  bindE R d1 H1. destruct (push_inv _ _ _ _ _ H1 A1) as (B1 & F1). bindE R name Hname. bindE R d2 H2.
  assert (A5' : attr d1 kXNAME = PList lN) by (rewrite F1 by discriminate; exact A5).
  destruct (push_inv _ _ _ _ _ H2 A5') as (B2 & F2).
  assert (Fin : forall dx nd x, (forall d3 d4, push d2 kDX dx = Ok d3 -> push d3 kNXDEF (PInt (Z.of_nat nd)) = Ok d4 -> push d4 kX (PList x) = Ok d' ->
     attr d' kNX = PList (ln ++ [PInt (Z.of_nat (ax_len ax))]) /\
     attr d' kNXDEF = PList (ld ++ [PInt (Z.of_nat nd)]) /\ attr d' kDX = PList (lx ++ [dx]) /\ attr d' kX = PList (lX ++ [PList x]) /\
     attr d' kXNAME = PList (lN ++ [PStr name]))).
  { intros dx nd x d3 d4 Q1 Q2 Q3.
    assert (C1 : attr d2 kDX = PList lx) by (rewrite F2, F1 by discriminate; exact A3).
    destruct (push_inv _ _ _ _ _ Q1 C1) as (B3 & F3).
    assert (C2 : attr d3 kNXDEF = PList ld) by (rewrite F3, F2, F1 by discriminate; exact A2).
    destruct (push_inv _ _ _ _ _ Q2 C2) as (B4 & F4).
    assert (C3 : attr d4 kX = PList lX) by (rewrite F4, F3, F2, F1 by discriminate; exact A4).
    destruct (push_inv _ _ _ _ _ Q3 C3) as (B5 & F5).
    split; [rewrite F5, F4, F3, F2 by discriminate; exact B1 |].
    split; [rewrite F5 by discriminate; exact B4 |]. split; [rewrite F5, F4 by discriminate; exact B3 |]. split; [exact B5 |].
    rewrite F5, F4, F3 by discriminate. exact B2. }
  destruct (Nat.ltb_spec (ax_len ax) 2) as [L | L].
  - bindE R d3 H3. bindE R d4 H4. destruct (Fin _ _ _ _ _ H3 H4 R) as (G1 & G2 & G3 & G4 & G5).
    exists (ax_len ax), (PInt 0), (ax_items ax), name. split; [left; auto |]. repeat (split; [assumption |]). split; [auto | split; [exact Hname | auto]].
  - bindE R incr Hi. destruct (negb (is_time ax) && uniform incr (ax_vals ax)) eqn:U.
    + apply andb_true_iff in U. destruct U as [Ti U].
      assert (Nt : ax_time ax = None) by (unfold is_time in Ti; destruct (ax_time ax); [discriminate Ti | reflexivity]).
      unfold ax_nums in Hi. rewrite Nt in Hi. rewrite Hi.
      bindE R d3 H3. bindE R d4 H4. destruct (Fin _ _ _ _ _ H3 H4 R) as (G1 & G2 & G3 & G4 & G5).
      do 4 eexists. split; [| repeat (split; [eassumption |]); split; [intros [Q | Q]; [congruence | discriminate (eq_trans (eq_sym Q) U)] | split; [exact Hname | eauto]]].
      destruct (Nat.ltb_spec 3 (ax_len ax)) as [T | T].
      * right. split; [reflexivity |]. split; [exact T |]. split; [exact Nt |]. split; [reflexivity |]. eauto.
      * left. split; [reflexivity |]. unfold ax_items, is_time. rewrite Nt. unfold ax_len. rewrite firstn_all. reflexivity.
    + bindE R d3 H3. bindE R d4 H4. destruct (Fin _ _ _ _ _ H3 H4 R) as (G1 & G2 & G3 & G4 & G5).
      exists (ax_len ax), (PInt 0), (ax_items ax), name. split; [left; auto |]. repeat (split; [assumption |]). split; [auto | split; [exact Hname | auto]].
Qed.
(** The entries of all axes. *)
Record ent := mkEnt { n_nd : nat; n_dx : pyv; n_x : list pyv; n_nm : str }.
Definition entry_of (ax : axis) (e : ent) : Prop :=
  entry ax (n_nd e) (n_dx e) (n_x e) /\
  (ax_time ax <> None \/ uniform (match interval (ax_vals ax) 0 1 with Ok i => i | Err _ => num_of_Z 0 end) (ax_vals ax) = false -> n_nd e = ax_len ax /\ n_x e = ax_items ax) /\
  getBestName (ax_info ax) = Ok (n_nm e) /\ (n_dx e = PInt 0 \/ exists i, n_dx e = PNum i).
(** An axis of numbers. *)
Definition xs_of (e : ent) : list num := map (fun p => match p with PNum x => x | _ => num_of_Z 0 end) (n_x e).
Lemma items_num (ax : axis) : ax_time ax = None -> ax_items ax = map PNum (ax_vals ax).
Proof. intros Nt. unfold ax_items, is_time. rewrite Nt. reflexivity. Qed.
Lemma entry_num ax e : entry_of ax e -> ax_time ax = None -> n_x e = map PNum (xs_of e) /\
  ((n_nd e = ax_len ax /\ xs_of e = ax_vals ax) \/ (n_nd e = 3%nat /\ (3 < ax_len ax)%nat /\ xs_of e = firstn 3 (ax_vals ax))).
Proof.
  intros (Q & _) Nt. assert (K : forall l : list num, n_x e = map PNum l -> xs_of e = l).
  { intros l R. unfold xs_of. rewrite R, map_map. apply map_id. }
  destruct Q as [(A & B) | (A & B & _ & C & _)]; [rewrite (items_num _ Nt) in B; rewrite (K _ B) | rewrite (K _ C)]; auto.
Qed.
Lemma append_all : forall axes (d d' : na) ln ld lx lX lN,
  attr d kNX = PList ln -> attr d kNXDEF = PList ld -> attr d kDX = PList lx -> attr d kX = PList lX -> attr d kXNAME = PList lN ->
  forR axes appendAxisDefinition d = Ok d' ->
  exists es, Forall2 entry_of axes es /\
    attr d' kNX = PList (ln ++ map (fun ax => PInt (Z.of_nat (ax_len ax))) axes) /\
    attr d' kNXDEF = PList (ld ++ map (fun e => PInt (Z.of_nat (n_nd e))) es) /\ attr d' kDX = PList (lx ++ map n_dx es) /\
    attr d' kX = PList (lX ++ map (fun e => PList (n_x e)) es) /\ attr d' kXNAME = PList (lN ++ map (fun e => PStr (n_nm e)) es).
Proof.
  induction axes as [| ax axes IH]; intros d d' ln ld lx lX lN A1 A2 A3 A4 A5 R; cbn [forR] in R.
  - injection R as <-. exists []. cbn [map]. rewrite !app_nil_r. repeat (split; [first [constructor | assumption] |]). assumption.
  - bindE R d1 H1. destruct (append_inv _ _ _ _ _ _ _ _ A1 A2 A3 A4 A5 H1) as (nd & dx & x & nm & En & B1 & B2 & B3 & B4 & B5 & B6 & B7 & B8).
    destruct (IH _ _ _ _ _ _ _ B1 B2 B3 B4 B5 R) as (es & F & C1 & C2 & C3 & C4 & C5).
    exists (mkEnt nd dx x nm :: es). split; [constructor; [split; [exact En | split; [exact B6 | split; [exact B7 | exact B8]]] | exact F] |]. cbn [map n_nd n_dx n_x n_nm].
    rewrite <- app_assoc in C1, C2, C3, C4, C5. auto.
Qed.

(** *** Expansion *)
Lemma extend_nums dx nx : forall fuel (l : list num), l <> [] -> (Z.to_nat nx - length l <= fuel)%nat ->
  exists l', extend fuel (map PNum l) (pred (length l)) nx (Ok (PNum dx)) = Ok (map PNum l').
Proof.
  induction fuel as [| fuel IH]; intros l N L; cbn [extend]; rewrite map_length; destruct (Z.ltb_spec (Z.of_nat (length l)) nx) as [Q | Q]; try lia; eauto.
  unfold nth_res. rewrite nth_error_map. destruct (nth_error l (pred (length l))) as [x |] eqn:E.
  - cbn [option_map of_opt bindR pv_add]. change [PNum (num_plus x dx)] with (map PNum [num_plus x dx]). rewrite <- map_app.
    destruct (IH (l ++ [num_plus x dx])) as (l' & R); [destruct l; discriminate | rewrite app_length; cbn; lia |].
    rewrite app_length in R. cbn [length] in R. replace (pred (length l + 1)) with (S (pred (length l))) in R by (destruct l; [congruence | cbn; lia]).
    exists l'. exact R.
  - apply nth_error_None in E. destruct l; [congruence | cbn in E; lia].
Qed.
Lemma uniform_nth incr (l : list num) i x y : uniform incr l = true -> nth_error l i = Some x -> nth_error l (S i) = Some y ->
  num_same (num_minus y x) incr = true.
Proof.
  unfold uniform. rewrite forallb_forall. intros F A B. apply (F (x, y)). clear F.
  revert i A B. induction l as [| a [| b t] IH]; intros i A B; [destruct i; discriminate A | destruct i as [| i]; cbn in B; [discriminate B | destruct i; discriminate B] |].
  destruct i as [| i]; cbn in A, B; [left; congruence |]. cbn [tl combine]. right. exact (IH i A B).
Qed.
Lemma extend_back incr l : adds_up l -> uniform incr l = true -> forall fuel done rest, l = done ++ rest -> done <> [] -> (length rest <= fuel)%nat ->
  extend fuel (map PNum done) (pred (length done)) (Z.of_nat (length l)) (Ok (PNum incr)) = Ok (map PNum l).
Proof.
  intros Ad U. induction fuel as [| fuel IH]; intros done rest E N L; cbn [extend]; rewrite map_length.
  - destruct rest; [| cbn in L; lia]. rewrite app_nil_r in E. subst done. rewrite Z.ltb_irrefl. reflexivity.
  - destruct rest as [| y rest]; [rewrite app_nil_r in E; subst done; rewrite Z.ltb_irrefl; reflexivity |].
    destruct (Z.ltb_spec (Z.of_nat (length done)) (Z.of_nat (length l))) as [Q | Q]; [| rewrite E, app_length in Q; cbn in Q; lia].
    assert (P : (pred (length done) < length done)%nat) by (destruct done; [congruence | cbn; lia]).
    unfold nth_res. rewrite nth_error_map. destruct (nth_error done (pred (length done))) as [x |] eqn:Ex; [| apply nth_error_None in Ex; lia].
    cbn [option_map of_opt bindR pv_add].
    assert (X1 : nth_error l (pred (length done)) = Some x) by (rewrite E, nth_error_app1 by exact P; exact Ex).
    assert (X2 : nth_error l (S (pred (length done))) = Some y).
    { replace (S (pred (length done))) with (length done) by lia. rewrite E, nth_error_app2, Nat.sub_diag by lia. reflexivity. }
    rewrite (Ad _ _ _ _ X1 X2 (uniform_nth _ _ _ _ _ U X1 X2)).
    change [PNum y] with (map (@PNum num) [y]). rewrite <- map_app.
    specialize (IH (done ++ [y]) rest). rewrite app_length in IH. cbn [length] in IH.
    replace (pred (length done + 1)) with (S (pred (length done))) in IH by lia.
    apply IH; [rewrite <- app_assoc; exact E | destruct done; discriminate | cbn in L; lia].
Qed.
Lemma modify_nth_get (l : list pyv) : forall i v w f, nth_error l i = Some v -> f v = Ok w ->
  exists l', modify_nth l i f = Ok l' /\ nth_error l' i = Some w /\ forall j, j <> i -> nth_error l' j = nth_error l j.
Proof.
  induction l as [| x t IH]; intros [| i] v w f E F; try discriminate E; cbn [modify_nth].
  - injection E as ->. rewrite F. cbn [bindR]. eexists. split; [reflexivity |]. split; [reflexivity |]. intros [| j] N; [congruence | reflexivity].
  - cbn in E. destruct (IH i v w f E F) as (l' & R & A & B). rewrite R. cbn [bindR]. eexists. split; [reflexivity |]. split; [exact A |].
    intros [| j] N; [reflexivity | apply B; congruence].
Qed.
Lemma index_some (v : pyv) i (x : list pyv) : index v i = Ok (PList x) -> exists l, v = PList l /\ nth_error l i = Some (PList x).
Proof.
  unfold index, nth_res. destruct v as [| | | s | l]; try discriminate; cbn [as_list bindR]; intros R.
  - rewrite nth_error_map in R. destruct (nth_error s i); discriminate R.
  - exists l. split; [reflexivity |]. destruct (nth_error l i); [cbn in R; congruence | discriminate R].
Qed.
Lemma nth_index (l : list pyv) i x : nth_error l i = Some x -> index (PList l) i = Ok x.
Proof. unfold index. cbn [as_list bindR]. unfold nth_res. intros ->. reflexivity. Qed.
(** one axis *)
Lemma axis_back ax e i (d : na) : entry_of ax e ->
  index (attr d kNXDEF) i = Ok (PInt (Z.of_nat (n_nd e))) -> index (attr d kNX) i = Ok (PInt (Z.of_nat (ax_len ax))) ->
  index (attr d kDX) (S i) = Ok (n_dx e) -> index (attr d kX) (S i) = Ok (PList (n_x e)) ->
  exists d', normalize_axis i d = Ok d' /\ (forall k, k <> kX -> attr d' k = attr d k) /\
    (forall j, j <> S i -> index (attr d' kX) j = index (attr d kX) j) /\
    (adds_up (ax_vals ax) -> index (attr d' kX) (S i) = Ok (PList (ax_items ax))).
Proof.
  intros (En & _) I1 I2 I3 I4. unfold normalize_axis. rewrite I1, I2. cbn [bindR int_eq as_int].
  destruct (Z.eqb_spec (Z.of_nat (n_nd e)) (Z.of_nat (ax_len ax))) as [Q | Q].
  - exists d. split; [reflexivity |]. split; [reflexivity |]. split; [reflexivity |]. intros _. rewrite I4.
    destruct En as [(_ & ->) | (A & B & _)]; [reflexivity | lia].
  - destruct En as [(A & _) | (A & B & Nt & C & incr & D & Iv & U)]; [lia |].
    assert (It : ax_items ax = map PNum (ax_vals ax)) by (unfold ax_items, is_time; rewrite Nt; reflexivity). rewrite It. clear It.
    unfold ax_len in *. destruct (index_some _ _ _ I4) as (X & EX & NX). rewrite EX. unfold modify_in.
    destruct (ax_vals ax) as [| x0 t] eqn:V; [cbn in B; lia |].
    assert (H1 : firstn 1 (n_x e) = map PNum [x0]) by (rewrite C; reflexivity).
    destruct (extend_nums incr (Z.of_nat (length (x0 :: t))) (Z.to_nat (Z.of_nat (length (x0 :: t)))) [x0]) as (l' & R); [discriminate | lia |].
    cbn [length pred] in R.
    destruct (modify_nth_get X (S i) (PList (n_x e)) (nums l')
      (fun x => match x with
                | PList l => bindR (extend (Z.to_nat (Z.of_nat (length (x0 :: t)))) (firstn 1 l) 0 (Z.of_nat (length (x0 :: t))) (index (attr d kDX) (S i)))
                               (fun l' => Ok (PList l'))
                | _ => Err ETypeError end) NX) as (X' & M & N1 & N2).
    { rewrite H1, I3, D. cbn [length]. rewrite R. reflexivity. }
    rewrite M. cbn [bindR]. eexists. split; [reflexivity |].
    split; [intros k N; apply attr_upd_other; congruence |]. rewrite attr_upd.
    split; [intros j N; unfold index; cbn [as_list bindR]; unfold nth_res; rewrite N2 by exact N; reflexivity |].
    intros Ad. rewrite (nth_index _ _ _ N1).
    assert (G := extend_back incr (x0 :: t) Ad U (Z.to_nat (Z.of_nat (length (x0 :: t)))) [x0] t eq_refl). cbn [length pred] in G.
    rewrite R in G. f_equal. unfold nums. f_equal. assert (G' := G ltac:(discriminate) ltac:(lia)). congruence.
Qed.
Lemma axes_back : forall axes es, Forall2 entry_of axes es -> forall a (d : na),
  (forall i ax e, nth_error axes i = Some ax -> nth_error es i = Some e ->
     index (attr d kNXDEF) (a + i) = Ok (PInt (Z.of_nat (n_nd e))) /\ index (attr d kNX) (a + i) = Ok (PInt (Z.of_nat (ax_len ax))) /\
     index (attr d kDX) (S (a + i)) = Ok (n_dx e) /\ index (attr d kX) (S (a + i)) = Ok (PList (n_x e))) ->
  exists d', forR (seq a (length axes)) normalize_axis d = Ok d' /\ (forall k, k <> kX -> attr d' k = attr d k) /\
    (forall j, (j <= a)%nat -> index (attr d' kX) j = index (attr d kX) j) /\
    forall i ax, nth_error axes i = Some ax -> adds_up (ax_vals ax) -> index (attr d' kX) (S (a + i)) = Ok (PList (ax_items ax)).
Proof.
  induction 1 as [| ax e axes es En F IH]; intros a d Hd; cbn [length seq forR].
  - exists d. repeat (split; [reflexivity |]). intros [|] ax N; discriminate N.
  - destruct (Hd 0%nat ax e eq_refl eq_refl) as (I1 & I2 & I3 & I4). rewrite Nat.add_0_r in *.
    destruct (axis_back ax e a d En I1 I2 I3 I4) as (d1 & R1 & K1 & J1 & X1). rewrite R1. cbn [bindR].
    destruct (IH (S a) d1) as (d' & R & K & J & X).
    { intros i ax' e' N N'. destruct (Hd (S i) ax' e' N N') as (Q1 & Q2 & Q3 & Q4). rewrite !K1 by discriminate.
      replace (S a + i)%nat with (a + S i)%nat by lia. rewrite J1 by lia. auto. }
    exists d'. split; [exact R |]. split; [intros k N; rewrite K, K1 by exact N; reflexivity |].
    split; [intros j L; rewrite J, J1 by lia; reflexivity |].
    intros [| i] ax' N Ad; cbn in N.
    + injection N as <-. rewrite Nat.add_0_r, J by lia. exact (X1 Ad).
    + replace (a + S i)%nat with (S a + i)%nat by lia. exact (X i ax' N Ad).
Qed.

(** *** The dictionary *)
Lemma axes_entries E ffi nvpm v (d d' : na) : defineAxes E ffi nvpm v d = Ok d' -> In ffi [2010; 3010; 4010]%Z ->
  exists ax0 axes es dx0 nm0, v_axes v = ax0 :: axes /\ Forall2 entry_of axes es /\
    attr d' kNX = PList (map (fun ax => PInt (Z.of_nat (ax_len ax))) axes) /\
    attr d' kNXDEF = PList (map (fun e => PInt (Z.of_nat (n_nd e))) es) /\ attr d' kDX = PList (dx0 :: map n_dx es) /\
    attr d' kX = PList (nums (ax_nums ax0) :: map (fun e => PList (n_x e)) es) /\ attr d' kXNAME = PList (PStr nm0 :: map (fun e => PStr (n_nm e)) es) /\
    getBestName (ax_info ax0) = Ok nm0.
Proof.
  unfold defineAxes. intros R I. cbv zeta in R. bindE R ax0 H0. bindE R name Hname. bindE R dx0 Hdx. bindE R d1 H1. bindE R d2 H2.
  assert (N1 : (ffi =? 1020)%Z = false) by (cbn in I; destruct I as [<- | [<- | [<- | []]]]; reflexivity).
  assert (N2 : existsb (Z.eqb ffi) [1001; 1010]%Z = false) by (cbn in I; destruct I as [<- | [<- | [<- | []]]]; reflexivity).
  assert (N3 : existsb (Z.eqb ffi) [2110; 2310]%Z = false) by (cbn in I; destruct I as [<- | [<- | [<- | []]]]; reflexivity).
  rewrite N1, N2 in H1. rewrite N3 in R. injection R as <-. injection H1 as H1.
  destruct (v_axes v) as [| ax axes] eqn:Ev; [discriminate H0 |]. cbn in H0. injection H0 as ->. cbn [skipn] in H2.
  destruct (append_all axes d1 d2 [] [] [dx0] [nums (ax_nums ax0)] [PStr name]) as (es & F & C1 & C2 & C3 & C4 & C5); try (rewrite <- H1; reflexivity); [exact H2 |].
  exists ax0, axes, es, dx0, name. repeat (split; [first [reflexivity | assumption] |]). assumption.
Qed.
End Axis.

(** The axes of a converted dictionary. *)
Lemma converted_axes num (Num : NumOps num) (Ar : ArithOps num) (E : env num) req globals (vars : list (xvar num)) cs c ffi v rest d :
  ~ In (lit "file_format_index") (map fst globals) ->
  convert E req globals vars = Ok (Some cs) -> In c cs -> c_main c = v :: rest ->
  c_na c = Some d -> d kFFI = Some (PInt ffi) -> In ffi [2010; 3010; 4010]%Z ->
  attr d kNIV = PInt (Z.of_nat (length (v_axes v))) /\
  exists bx axes es dx0 nm0, v_axes v = bx :: axes /\ Forall2 entry_of axes es /\
    attr d kNX = PList (map (fun ax => PInt (Z.of_nat (ax_len ax))) axes) /\
    attr d kNXDEF = PList (map (fun e => PInt (Z.of_nat (n_nd e))) es) /\ attr d kDX = PList (dx0 :: map n_dx es) /\
    attr d kX = PList (nums (ax_nums bx) :: map (fun e => PList (n_x e)) es) /\ attr d kXNAME = PList (PStr nm0 :: map (fun e => PStr (n_nm e)) es) /\
    getBestName (ax_info bx) = Ok nm0.
Proof.
  intros Ng R I Ev Nd Hf If.
  destruct (convert_each E _ _ _ _ _ R I) as (vs & C & _ & _).
  destruct (collect_steps E _ _ _ _ _ C Nd) as (a & d1 & d2 & g & d3 & v0 & ax0 & Ha & H1 & H2 & Hg & H3 & _ & _ & Ed & Em & _).
  assert (Fr2 : forall k, ~ In k (aux_keys ++ global_keys ++ [kNCOM; kNNCOML; kSCOM; kNSCOML] ++ [kRDATE; kDATE; kIVOL; kNVOL]) -> d k = d1 k).
  { intros k Nk. rewrite !in_app_iff in Nk. rewrite Ed, (same_header E ax0 d3 k) by tauto. rewrite (comments_frame _ _ _ _ H3 k) by tauto.
    rewrite (same_globals E _ _ _ Hg k) by tauto. rewrite (same_aux E _ _ _ H2 k) by tauto. reflexivity. }
  assert (Fa : forall k, ~ In k (aux_keys ++ global_keys ++ [kNCOM; kNNCOML; kSCOM; kNSCOML] ++ [kRDATE; kDATE; kIVOL; kNVOL]) -> attr d k = attr d1 k)
    by (intros k Nk; unfold attr; rewrite (Fr2 k Nk); reflexivity).
  assert (Gf : gs_na g kFFI = d2 kFFI).
  { unfold defineNAGlobals in Hg.
    refine (forR_inv (fun g => gs_na g kFFI = d2 kFFI) _ _ _ _ _ Hg eq_refl).
    intros x s s' Ix Q P. rewrite <- P. apply (item_ffi E x s s'); [| exact Q]. intros Q'. apply Ng. rewrite <- Q'. apply in_map, Ix. }
  assert (Fi : a_ffi a = ffi).
  { rewrite Ed, (same_header E ax0 d3 kFFI) in Hf by (cbn; intuition discriminate). rewrite (comments_frame _ _ _ _ H3 kFFI) in Hf by (cbn; intuition discriminate).
    rewrite Gf, (same_aux E _ _ _ H2 kFFI) in Hf by (cbn; intuition discriminate). rewrite (same_vars E _ _ _ _ _ H1 kFFI) in Hf by (cbn; intuition discriminate).
    cbn in Hf. congruence. }
  assert (Hn : attr d kNIV = PInt (Z.of_nat (length (v_axes v)))).
  { unfold attr. rewrite (Fr2 kNIV) by (cbn; intuition discriminate). rewrite (same_vars E _ _ _ _ _ H1 kNIV) by (cbn; intuition discriminate).
    assert (Lv : length (v_axes v) = a_niv a).
    { destruct (analyse_merged E _ _ _ Ha) as (best' & _ & _ & Hn' & M & _). rewrite Hn'. rewrite <- Em in M.
      destruct (M v) as [-> | F]; [rewrite Ev; left; reflexivity | reflexivity |]. symmetry. clear - F. unfold rank. induction F; cbn; congruence. }
    rewrite Lv. destruct (a_nvpm a); reflexivity. }
  rewrite Em in Ev. rewrite Fi in H1. unfold defineNAVars in H1. rewrite Ev in H1. bindE H1 d0 H0.
  destruct (axes_entries E _ _ _ _ _ H1 If) as (bx & axes & es & dx0 & nm0 & Va & F & C1 & C2 & C3 & C4 & C5 & C6).
  split; [exact Hn |]. exists bx, axes, es, dx0, nm0. rewrite !Fa by (cbn; intuition discriminate). repeat (split; [assumption |]). assumption.
Qed.
(** What the conversion writes for the axes after the first one, and what comes
    out when it is expanded: every axis whose neighbours add up is as it was; an
    axis that is not evenly spaced is complete to begin with. *)
Theorem C56_partial : forall num (Num : NumOps num) (Ar : ArithOps num) (E : env num) req globals (vars : list (xvar num)) cs c ffi v rest,
  ~ In (lit "file_format_index") (map fst globals) ->
  convert E req globals vars = Ok (Some cs) -> In c cs -> c_main c = v :: rest ->
  (exists d, c_na c = Some d /\ d kFFI = Some (PInt ffi)) -> In ffi [2010; 3010; 4010]%Z ->
  exists d d', c_na c = Some d /\ normalizeIndVars_2010 d = Ok d' /\ (forall k, k <> kX -> attr d' k = attr d k) /\
    forall i ax, nth_error (v_axes v) (S i) = Some ax ->
      index (attr d kNX) i = Ok (PInt (Z.of_nat (length (ax_vals ax)))) /\
      (ax_time ax = None -> adds_up (ax_vals ax) -> index (attr d' kX) (S i) = Ok (PList (map PNum (ax_vals ax)))) /\
      (ax_time ax = None -> ~ evenly_spaced (ax_vals ax) -> index (attr d kX) (S i) = Ok (PList (map PNum (ax_vals ax))) /\
                                       index (attr d kNXDEF) i = index (attr d kNX) i).
Proof.
  intros num Num Ar E req globals vars cs c ffi v rest Ng R I Ev (d & Nd & Hf) If.
  destruct (converted_axes _ _ _ E _ _ _ _ _ _ _ _ _ Ng R I Ev Nd Hf If) as (Hn & bx & axes & es & dx0 & nm0 & Va & F & C1 & C2 & C3 & C4 & C5 & _).
  rewrite Va in Hn |- *. cbn [nth_error].
  destruct (axes_back axes es F 0 d) as (d' & N1 & N2 & N3 & N4).
  { intros i ax e A B. rewrite C1, C2, C3, C4. cbn [Nat.add]. unfold index, nth_res. cbn [as_list bindR nth_error].
    rewrite !nth_error_map, A, B. cbn [option_map of_opt]. auto. }
  exists d, d'. split; [exact Nd |]. split.
  { unfold normalizeIndVars_2010. rewrite Hn. cbn [as_int bindR length]. unfold range.
    replace (Z.to_nat (Z.of_nat (S (length axes)) - 1)) with (length axes) by lia. exact N1. }
  split; [exact N2 |]. intros i ax A.
  destruct (nth_error es i) as [e |] eqn:B.
  2: { apply nth_error_None in B. assert (i < length axes)%nat by (apply nth_error_Some; congruence). assert (L : length axes = length es) by (clear - F; induction F; cbn; congruence). lia. }
  assert (G : entry_of ax e). { clear - F A B. revert i A B. induction F as [| x y l l' P F IH]; intros [| i] A B; try discriminate A; cbn in A, B; [congruence | exact (IH i A B)]. }
  rewrite C1, C2, C4.
  unfold index at 1. unfold nth_res. cbn [as_list bindR]. rewrite nth_error_map, A. cbn [option_map of_opt].
  split; [reflexivity |]. assert (It : ax_time ax = None -> ax_items ax = map PNum (ax_vals ax)) by (intros Nt; unfold ax_items, is_time; rewrite Nt; reflexivity).
  split; [intros Nt; rewrite <- (It Nt); exact (N4 i ax A) |]. intros Nt Ne.
  destruct G as (_ & G & _).
  assert (U : uniform match interval (ax_vals ax) 0 1 with Ok i => i | Err _ => num_of_Z 0 end (ax_vals ax) = false).
  { apply not_true_is_false. intros U. apply Ne. intros p q j x y P Q X Y. unfold interval, nth_res in U. rewrite P, Q in U. cbn [of_opt bindR] in U.
    exact (uniform_nth _ _ _ _ _ U X Y). }
  destruct (G (or_intror U)) as (G1 & G2). rewrite (It Nt) in G2. unfold index, nth_res. cbn [as_list bindR nth_error]. rewrite !nth_error_map, A, B. cbn [option_map of_opt].
  rewrite G1, G2. split; reflexivity.
Qed.
(** In exact arithmetic every axis adds up. *)
Theorem C56_exact : forall num (Ar : ArithOps num),
  (forall x y : num, num_plus x (num_minus y x) = y) -> (forall x y : num, num_same x y = true -> x = y) ->
  forall l : list num, adds_up l.
Proof. intros num Ar L1 L2 l i x y d _ _ Q. rewrite <- (L2 _ _ Q). apply L1. Qed.

Definition long : axis Z := ax (lit "z") [10; 20; 30; 40; 50]%Z.
Definition plane : xvar Z := var (lit "b") [] [ts; long] (PList (map (fun _ => data [1; 2; 3; 4; 5]%Z) (ax_vals ts))).
Definition dict_at {num} (r : Res (option (list (collected num)))) : na num :=
  match r with Ok (Some (c :: _)) => match c_na c with Some d => d | None => na_empty end | _ => na_empty end.
Example C56_example :
  attr (dict_at (convert env_Z None [] [plane])) kNXDEF = PList [PInt 3%Z] /\
  index (attr (dict_at (convert env_Z None [] [plane])) kX) 1 = Ok (data [10; 20; 30]%Z) /\
  (exists d', normalizeIndVars_2010 (dict_at (convert env_Z None [] [plane])) = Ok d' /\ index (attr d' kX) 1 = Ok (data [10; 20; 30; 40; 50]%Z)) /\
  (forall x y : Z, num_plus x (num_minus y x) = y) /\ (forall x y : Z, num_same x y = true -> x = y).
Proof.
  split; [vm_compute; reflexivity |]. split; [vm_compute; reflexivity |].
  split; [eexists; split; vm_compute; reflexivity |].
  split; [intros x y; cbn; lia | intros x y Q; cbn in Q; lia].
Qed.

(** False of the code with floating point numbers: 1, 1e-20, -1, -2 has three
    equal differences, but adding them gives 0 as the second value. *)
Definition env_b : env b64 :=
  mkEnv (fun l => uniform (num_minus (nth 1 l (bf "0")) (nth 0 l (bf "0"))) l) (lit "2024-01-01 00:00:00") [2024; 1; 1]%Z
    (lit "0.3") (bf "-9999999999") (bf "-9999.999") (bf "1") (fun _ _ => None).
Definition axb (n : str) (l : list b64) : axis b64 := mkAx (mkNamed n [] []) [None; None; None; None] l None.
Definition tiny : list b64 := [bf "1"; bf "1e-20"; bf "-1"; bf "-2"].
Definition plane_b : xvar b64 := mkVar (mkNamed (lit "b") [] []) [axb (lit "t") [bf "1"; bf "2"]; axb (lit "x") tiny]
  (PList (map (fun _ => PList (map PNum tiny)) [0; 1]%nat)) None None.
Theorem C56_refuted : exists (vars : list (xvar b64)) cs c d d' v,
  convert env_b None [] vars = Ok (Some cs) /\ In c cs /\ c_main c = [v] /\ c_na c = Some d /\ d kFFI = Some (PInt 2010) /\
  option_map (@ax_vals b64) (nth_error (v_axes v) 1) = Some [bf "1"; bf "1e-20"; bf "-1"; bf "-2"] /\
  normalizeIndVars_2010 d = Ok d' /\ index (attr d' kX) 1 = Ok (PList (map PNum [bf "1"; bf "0"; bf "-1"; bf "-2"])).
Proof.
  set (r := convert env_b None [] [plane_b]).
  assert (K : match r with
              | Ok (Some [c]) =>
                  match c_na c with
                  | Some d => match normalizeIndVars_2010 d with
                              | Ok d' => (c_main c, d kFFI, index (attr d' kX) 1)
                                         = ([plane_b], Some (PInt 2010%Z), Ok (PList (map PNum [bf "1"; bf "0"; bf "-1"; bf "-2"])))
                              | Err _ => False
                              end
                  | None => False
                  end
              | _ => False
              end) by (vm_compute; reflexivity).
  destruct r as [[[| c [|]] |] |] eqn:Er; try (destruct K; fail). destruct (c_na c) as [d |] eqn:Ed; [| destruct K].
  destruct (normalizeIndVars_2010 d) as [d' |] eqn:En; [| destruct K].
  assert (K1 := f_equal (fun q => fst (fst q)) K). assert (K2 := f_equal (fun q => snd (fst q)) K). assert (K3 := f_equal snd K). cbn [fst snd] in K1, K2, K3.
  exists [plane_b], [c], c, d, d', plane_b. split; [exact Er |]. split; [left; reflexivity |].
  repeat (split; [first [assumption | reflexivity] |]). exact K3.
Qed.

Print Assumptions C56_partial.
Print Assumptions C56_exact.
Print Assumptions C56_refuted.
