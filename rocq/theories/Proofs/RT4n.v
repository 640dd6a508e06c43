(** Round trip of FFI 2310 (any number of primary variables). *)
From Coq Require Import List NArith ZArith Bool Lia.
From Verif Require Import Py.Str Py.Res Py.Num Model.Dict Model.TextParser Model.CommonUtils
  Model.NAWrite Model.NARead Spec.TextSpec Spec.Records Spec.RoundTripSpec
  Proofs.StrLemmas Proofs.NumLemmas Proofs.TextLemmas Proofs.WriteFrame Proofs.WriteSim Proofs.RTText Proofs.RTHead Proofs.RTRead
  Proofs.RTData Proofs.RT1 Proofs.RT2 Proofs.RT3 Proofs.RT4 Spec.Interleave.
Import ListNotations.

Section RT4n.
Context {num : Type} `{NumOps num}.
Variable o : opts num.
Hypothesis Hann : o_annot o = false.
Hypothesis Hd : delim_ok (o_delim o).
Hypothesis Hs : str_law.
Variable g : num -> num.
Hypothesis Hf : fmt_law (o_fmt o) g.
Local Notation dl := (o_delim o).
Local Notation number := (number num).
Local Notation dn := (data_num g).
Local Notation pyv := (pyv num).

Definition dx0n (r : r2310n num) : number := hd (NI 0) (q_dx r).
Definition body2310n (r : r2310n num) : list str :=
  common_lines o (q_common r) ++ [s_of (dx0n r)] ++
  [snd (q_xname r); fst (q_xname r)] ++
  var_lines o (q_vars r) ++ aux_lines o (q_aux r) ++ comment_lines (q_common r).
Lemma varsn_ok r : ok2310n g r -> vars_ok (q_vars r).
Proof. now intros (_ & K & _). Qed.
Lemma body2310n_one_line r : ok2310n g r -> Forall one_line (body2310n r).
Proof.
  intros Hr. pose proof (varsn_ok r Hr) as Hv. destruct Hr as (Hc & _ & Ha & _ & Hx1 & Hx2 & _).
  unfold body2310n. rewrite !Forall_app. repeat match goal with |- _ /\ _ => split end;
    auto using common_one_line, var_one_line, aux_one_line, comments_one_line.
  - constructor; auto. apply token_one_line, s_of_token, Hs.
  - apply names_one_line. auto.
Qed.
Definition mid2310n (r : r2310n num) (d : na num) : na num :=
  upd d kXNAME (strs_pv [snd (q_xname r); fst (q_xname r)]).
Lemma write2310n r d nlh f : has d (items2310n r) -> ok2310n g r -> attr d kNLHEAD = PInt nlh ->
  writeHeader o C2310 (mkW f [] d) =
  (Ok tt, mkW (f ++ unlines (header o 2310 (body2310n r))) (unlines (header o 2310 (body2310n r))) (mid2310n r d)).
Proof.
  intros Hh Hr Hn. pose proof (varsn_ok r Hr) as Hv.
  destruct Hr as (Hc & _ & Ha & _ & Hx1 & Hx2 & _ & _ & _ & _ & _ & _ & _ & Hdx & _). pose proof (fun k v => has_attr d _ k v Hh) as A.
  unfold items2310n in Hh. apply has_app in Hh as [Hh1 Hh]. apply has_app in Hh as [Hh2 Hh].
  apply has_app in Hh as [Hh3 Hh].
  pose proof (fun k v => has_attr d _ k v Hh) as A1.
  unfold body2310n. cbn [writeHeader]. unfold writeHeader_2310.
  assert (Niv : attr d kNIV = PInt 2) by (apply A; simpl; tauto).
  set (d2 := mid2310n r d).
  eapply (closes_start o 2310).
  - apply (emits_common o Hann 2310 2); eauto.
  - now apply common_one_line.
  - apply (closes_step o 2310 _ _ d [_] d).
    { intros f' h'. unfold bindW at 1. rewrite (wself_ok kDX (nums_pv (q_dx r))) by (apply A1; simpl; tauto).
      unfold bindW at 1, liftW at 1. rewrite index_nums by (destruct (q_dx r); [congruence|cbn; lia]).
      unfold bindW at 1, liftW at 1. rewrite fmt_s_pv.
      replace (at_ 0 (q_dx r)) with (dx0n r) by (unfold dx0n, at_; now destruct (q_dx r)). now apply hwrap_emits. }
    { constructor; auto. apply token_one_line, s_of_token, Hs. }
    eapply (closes_step o 2310 _ _ d [] d2); [|constructor|].
    { apply (emits_reverse kXNAME [PStr (fst (q_xname r)); PStr (snd (q_xname r))]).
      change (attr d kXNAME = PList [PStr (fst (q_xname r)); PStr (snd (q_xname r))]). apply A1. simpl; tauto. }
    eapply (closes_step o 2310 _ _ d2 [_; _] d2).
    { apply (emits_lines_block o Hann _ kNIV kXNAME 2%Z); try reflexivity. exact Niv. }
    { apply names_one_line. auto. }
    assert (P : forall items, has d items -> ~ In kXNAME (map fst items) -> has d2 items).
    { intros items K1 K2. unfold d2, mid2310n. apply has_upd; auto. }
    apply (closes_step o 2310 _ _ d2 _ d2).
    { apply emits_vars; auto. apply P; auto; simpl; intuition discriminate. } { now apply var_one_line. }
    apply (closes_step o 2310 _ _ d2 _ d2).
    { apply emits_aux; auto. apply P; auto; unfold aux_items; destruct (q_aux r); simpl; intuition discriminate. }
    { now apply aux_one_line. }
    rewrite <- (app_nil_r (comment_lines _)).
    apply (closes_step o 2310 _ _ d2 _ d2).
    { apply (emits_comments o Hann 2310 2). apply P; auto; simpl; intuition discriminate. }
    { now apply comments_one_line. }
    apply closes_end; auto. change (attr d kFFI = PInt 2310). apply A; simpl; tauto.
Qed.

Definition read2310n (n : Z) (r : r2310n num) : na num :=
  upd_comments (q_common r) (upd_aux (map norm_var (q_aux r)) (upd_vars (map norm_var (q_vars r))
    (upd (upd (upd_common n 2310 (q_common r) na_new)
      kDX (nums_pv [head_num (dx0n r)])) kXNAME (strs_pv [fst (q_xname r); snd (q_xname r)])))).
Lemma eats2310n r : ok2310n g r ->
  eats (readHeader C2310 0) na_new (header o 2310 (body2310n r)) (read2310n (Z.of_nat (S (length (body2310n r)))) r) tt.
Proof.
  intros Hr. pose proof (varsn_ok r Hr) as Hv. destruct Hr as (Hc & _ & Ha & _ & Hx1 & Hx2 & _).
  unfold header. set (n := Z.of_nat _). clearbody n.
  unfold body2310n, read2310n. cbn [readHeader]. unfold readHeader_2310.
  rewrite app_comm_cons.
  eapply (eats_seq _ _ _ (_ :: common_lines o _)); [eapply (eats_common dl); auto|].
  eapply (eats_bind _ _ _ [] _ 2%Z); [apply eats_get_int; reflexivity|].
  eapply (eats_seq _ _ _ [_]).
  { apply (eats_set_list _ PList). apply (eats_num_line dl Hd Hs o eq_refl [dx0n r]); [discriminate|reflexivity]. }
  eapply (eats_seq _ _ _ [_; _]).
  { apply (eats_set_list _ (fun l => PList (rev l))). apply eats_names; [|reflexivity]. auto. }
  eapply (eats_seq _ _ _ (var_lines o _)); [eapply (eats_vars dl); auto|].
  eapply (eats_seq _ _ _ (aux_lines o _)); [eapply (eats_aux dl); auto|].
  apply eats_comments.
Qed.

(** ** The order of the values of a mark *)
Lemma nth_blocks {A} (f : nat -> nat -> A) nv nx s k d : (k < nx * nv)%nat ->
  nth k (flat_map (fun p => map (f p) (seq 0 nv)) (seq s nx)) d = f (s + k / nv)%nat (k mod nv)%nat.
Proof.
  revert s k. induction nx as [|nx IH]; intros s k Hk; [simpl in Hk; lia|].
  assert (Hv : nv <> 0%nat) by (intros ->; lia).
  cbn [seq flat_map]. destruct (Nat.lt_ge_cases k nv) as [Hl|Hl].
  - rewrite app_nth1 by (rewrite map_length, seq_length; auto). rewrite Nat.div_small, Nat.mod_small by auto.
    rewrite (nth_map_lt _ _ _ 0%nat) by (rewrite seq_length; auto). rewrite seq_nth by auto. f_equal; lia.
  - rewrite app_nth2 by (rewrite map_length, seq_length; auto). rewrite map_length, seq_length.
    rewrite IH by (cbn [Nat.mul] in Hk; lia).
    assert (E : k = (k - nv + 1 * nv)%nat) by lia.
    rewrite E at 3 4. rewrite Nat.div_add, Nat.mod_add by auto. f_equal. lia.
Qed.
Lemma length_blocks {A} (f : nat -> nat -> A) nv nx s :
  length (flat_map (fun p => map (f p) (seq 0 nv)) (seq s nx)) = (nx * nv)%nat.
Proof.
  revert s. induction nx as [|nx IH]; intros s; [reflexivity|].
  cbn [seq flat_map]. rewrite app_length, IH, map_length, seq_length. reflexivity.
Qed.
(** The values of mark [m] in the order of the file. *)
Definition rown (V : list (list (list number))) (m nx : nat) : list number :=
  flat_map (fun p => map (fun n => cell V n m p) (seq 0 (length V))) (seq 0 nx).

Lemma rown_length V m nx : length (rown V m nx) = (nx * length V)%nat.
Proof. apply length_blocks. Qed.
Lemma rown_at V m nx k : (k < nx * length V)%nat -> at_ k (rown V m nx) = cell V (k mod length V) m (k / length V).
Proof. intros Hk. unfold at_, rown. now rewrite nth_blocks. Qed.

(** Sizes: every variable has [NX[m]] values at mark [m]. *)
Definition sized (nxs : list nat) (V : list (list (list number))) : Prop := Forall (Forall2 (fun n v => length v = n) nxs) V.
Lemma sized_len nxs V n : sized nxs V -> (n < length V)%nat -> length (nth n V []) = length nxs.
Proof.
  intros Hs' Hn. unfold sized in Hs'. rewrite Forall_forall in Hs'. specialize (Hs' _ (nth_In V [] Hn)).
  revert Hs'. generalize (nth n V []). clear. intros l K. induction K; cbn [length]; congruence.
Qed.
Lemma sized_at nxs V n m : sized nxs V -> (n < length V)%nat -> (m < length nxs)%nat ->
  length (nth m (nth n V []) []) = nth m nxs 0%nat.
Proof.
  intros Hs' Hn Hm. unfold sized in Hs'. rewrite Forall_forall in Hs'. specialize (Hs' _ (nth_In V [] Hn)).
  apply (Forall2_nth _ _ _ m 0%nat [] Hs' Hm).
Qed.
Lemma cell_dn nxs V n m i : sized nxs V -> (n < length V)%nat -> (m < length nxs)%nat -> (i < nth m nxs 0)%nat ->
  cell (map (map (map dn)) V) n m i = dn (cell V n m i).
Proof.
  intros Hs' Hn Hm Hi. unfold cell. pose proof (sized_at nxs V n m Hs' Hn Hm) as L1. pose proof (sized_len nxs V n Hs' Hn) as L2.
  rewrite (nth_map_lt (map (map dn)) V n []) by auto.
  rewrite (nth_map_lt (map dn) _ m []) by lia. apply nth_map_lt. lia.
Qed.
Lemma mixed_nth nxs (V : list (list (list number))) n v : nth_error (mixed nxs V) n = Some v -> (n < length V)%nat /\
  v = map (fun m => map (fun i => let k := (n * nth m nxs 0 + i)%nat in cell V (k mod length V) m (k / length V))
             (seq 0 (nth m nxs 0))) (seq 0 (length nxs)).
Proof.
  intros E. assert (Hn : (n < length V)%nat).
  { assert (K : nth_error (mixed nxs V) n <> None) by congruence. apply nth_error_Some in K.
    unfold mixed in K. now rewrite map_length, seq_length in K. }
  split; auto. unfold mixed in E.
  rewrite nth_error_map in E. rewrite (nth_error_nth' _ 0%nat) in E by now rewrite seq_length.
  rewrite seq_nth in E by auto. cbn [option_map Nat.add] in E. now injection E as <-.
Qed.
Lemma readData2_2310n_ok h m rest X nxs DXn nx (V : list (list (list number))) A DX :
  attr h kNV = PInt (Z.of_nat (length V)) -> V <> [] -> sized nxs V -> (m < length nxs)%nat -> nx = nth m nxs 0%nat -> (0 < nx)%nat ->
  nth_res DXn m = Ok (PInt (Z.of_nat nx)) ->
  readData2_2310 h (nls [row o (rown V m nx)] ++ rest) m
    (mkD X (vst3 m (mixed nxs (map (map (map dn)) V))) A DXn DX) =
  Ok (mkD X (vst3 (S m) (mixed nxs (map (map (map dn)) V))) A DXn DX, rest).
Proof.
  intros Nv Hne Hsz Hm -> Hnx En. unfold readData2_2310, h_int. rewrite Nv. cbn [as_int bindR d_NX d_V]. rewrite En. cbn [bindR as_int].
  set (nx := nth m nxs 0%nat) in *.
  assert (Hnv : (0 < length V)%nat) by (destruct V; [congruence|simpl; lia]).
  rewrite (items_row o Hd g Hf).
  2:{ intros K. apply (f_equal (@length _)) in K. rewrite rown_length in K. simpl in K. nia. }
  2:{ rewrite rown_length. lia. }
  cbn [bindR]. set (L := mixed nxs (map (map (map dn)) V)).
  match goal with |- context [forR (range ?z) ?body ?ini] =>
    assert (E : forR (range z) body ini = Ok (vst3 (S m) L)) end.
  2:{ rewrite E. reflexivity. }
  unfold range at 1. rewrite Nat2Z.id.
  replace (length V) with (length L) at 1 by (unfold L, mixed; now rewrite !map_length, seq_length).
  unfold vst3. apply forR_map. intros n v a b Ev Ha.
  apply mixed_nth in Ev as [Hn ->]. rewrite map_length in *. subst n.
  rewrite modify_nth_app. cbn [app_item bindR]. unfold range. rewrite !Nat2Z.id.
  set (F := fun m0 => map (fun i => let k := (length a * nth m0 nxs 0 + i)%nat in
    cell (map (map (map dn)) V) (k mod length V) m0 (k / length V)) (seq 0 (nth m0 nxs 0))).
  assert (E1 : firstn (S m) (map F (seq 0 (length nxs))) = firstn m (map F (seq 0 (length nxs))) ++ [F m]).
  { apply firstn_S_nth. rewrite nth_error_map, (nth_error_nth' _ 0%nat) by now rewrite seq_length.
    rewrite seq_nth by auto. reflexivity. }
  rewrite E1, map_app. cbn [map].
  assert (Lm : length (map (@nums_pv num) (firstn m (map F (seq 0 (length nxs))))) = m).
  { rewrite map_length, firstn_length, map_length, seq_length. lia. }
  set (P := map (@nums_pv num) (firstn m (map F (seq 0 (length nxs))))) in *. clearbody P.
  assert (LF : length (F m) = nx) by (unfold F; now rewrite map_length, seq_length).
  etransitivity; [apply (forR_inv _ (fun i => a ++ PList (P ++ [nums_pv (firstn i (F m))]) :: b) nx)|].
  2:{ rewrite firstn_all2 by lia. reflexivity. }
  intros i Hi. cbv beta.
  assert (Hk : (length a * nx + i < nx * length V)%nat) by nia.
  assert (Hdiv : ((length a * nx + i) / length V < nx)%nat) by (apply Nat.div_lt_upper_bound; lia).
  assert (Hmod : ((length a * nx + i) mod length V < length V)%nat) by (apply Nat.mod_upper_bound; lia).
  rewrite (nth_res_map pv _ _ (at_ i (F m))).
  2:{ rewrite nth_error_map. rewrite (at_error (rown V m nx)) by (rewrite rown_length; lia). cbn [option_map]. f_equal.
      rewrite rown_at by lia. unfold F, at_. rewrite (nth_map_lt _ _ _ 0%nat) by now rewrite seq_length.
      rewrite seq_nth by auto. cbn [Nat.add]. fold nx. symmetry. apply (cell_dn nxs); auto. }
  cbn [bindR]. rewrite modify_nth_app. rewrite modify_in_app by auto. unfold nums_pv at 1. cbn [app_item bindR].
  rewrite (firstn_at (F m)) by lia. unfold nums_pv at 1. rewrite (map_app pv). reflexivity.
Qed.

Definition lines2310n (r : r2310n num) : list str :=
  header o 2310 (body2310n r) ++ concat (map (fun m => [row o (at_ m (q_x r) :: col m (q_a r)); row o (rown (q_v r) m (nth m (q_nx r) 0%nat))]) (seq 0 (length (q_x r)))).
Theorem rt2310n_as r d nlh : ok2310n g r -> has d (items2310n r) -> attr d kNLHEAD = PInt nlh ->
  comes_back_as o C2310 d (items2310n (read2310n_as g r)) (lines2310n r).
Proof.
  intros Hr Hh Hn. pose proof (fun k v => has_attr d _ k v Hh) as A.
  pose proof Hr as (Hc & Hv & Ha & Ha3 & Hx1 & Hx2 & Hl1 & Hl2 & Hl3 & Hpos & Hcnt & Hvn & Hvl & Hdx & Hst).
  set (M := length (q_x r)) in *. set (n := Z.of_nat (S (length (body2310n r)))).
  assert (Hla : forall m, (m < M)%nat -> Forall (fun c => m < length c)%nat (q_a r)) by (intros m; now apply lens_lt).
  assert (Hcol : forall i, (i < length (q_a r))%nat -> length (nth i (q_a r) []) = M).
  { intros i Hi. rewrite Forall_forall in Hl3. apply Hl3, nth_In, Hi. }
  assert (Hne : q_v r <> []).
  { intros K. rewrite K in Hvn. destruct Hv as [Hv _]. destruct (q_vars r); [congruence|discriminate]. }
  assert (Hnv : (0 < length (q_v r))%nat) by (destruct (q_v r); [congruence|simpl; lia]).
  assert (Hp : forall m, (m < M)%nat -> (0 < nth m (q_nx r) 0)%nat).
  { intros m Hm. rewrite Forall_forall in Hpos. apply Hpos, nth_In. lia. }
  assert (Hlt : length (tl (q_dx r)) = M).
  { rewrite <- (Hcol 2%nat) by lia. clear - Hst. induction Hst; cbn [length]; congruence. }
  set (dr := read2310n n r). set (x1 := nth 1 (q_a r) []) in *.
  set (xs' := combine (map dn (q_x r)) (map dn x1)).
  assert (Hxl : length xs' = M) by (unfold xs'; rewrite combine_length, !map_length; unfold x1; rewrite Hcol by lia; fold M; lia).
  assert (Nv : attr dr kNV = PInt (Z.of_nat (length (q_v r)))).
  { apply (attr_len dr kNV (map norm_var (q_vars r))); [unfold dr, read2310n, upd_aux; now destruct (map norm_var (q_aux r))|now rewrite map_length]. }
  assert (Na : attr dr kNAUXV = PInt (Z.of_nat (length (q_a r)))).
  { apply (attr_len dr kNAUXV (map norm_var (q_aux r))); [unfold dr, read2310n, upd_aux; now destruct (map norm_var (q_aux r))|now rewrite map_length]. }
  assert (ND : attr dr kDX = PList [pv (head_num (dx0n r))]).
  { unfold dr, read2310n, upd_aux; now destruct (map norm_var (q_aux r)). }
  pose (PX := fun p : number * number => PList [pv (fst p); nums_pv [snd p]]).
  apply (comes_back_intro o Hd C2310 d 2310 (body2310n r) (mid2310n r d) (mid2310n r d) dr _
    (fun m => [row o (at_ m (q_x r) :: col m (q_a r)); row o (rown (q_v r) m (nth m (q_nx r) 0%nat))])
    (fun m => mkD (map PX (firstn m xs')) (vst3 m (mixed (q_nx r) (map (map (map dn)) (q_v r)))) (pre m (map (map dn) (q_a r)))
       (map (fun k => PInt (Z.of_nat k)) (firstn m (q_nx r))) (pv (head_num (dx0n r)) :: map pv (firstn m (tl (q_dx r))))) M).
  - intros f. eapply write2310n; eauto.
  - match goal with |- forall f h, _ = (Ok tt, mkW (f ++ unlines ?L) h ?d1) => change (emitd (writeData o C2310) d1 L) end.
    set (d2 := mid2310n r d).
    assert (A3 : forall k, k <> kXNAME -> attr d2 k = attr d k).
    { intros k K2. destruct k; try reflexivity; congruence. }
    clearbody d2.
    assert (A1 : forall k v, In (k, v) [(kX, PList (map PX (combine (q_x r) x1))); (kNX, PList (map (fun n => PInt (Z.of_nat n)) (q_nx r)));
      (kA, PList (map nums_pv (q_a r)));
      (kV, PList (map (fun v => PList (map nums_pv v)) (q_v r))); (kNAUXV, PInt (Z.of_nat (length (q_aux r)))); (kNV, PInt (Z.of_nat (length (q_vars r))))] -> attr d2 k = v).
    { intros k v Hi. rewrite A3; [|intros ->; simpl in Hi; intuition discriminate].
      apply A. unfold items2310n. rewrite !in_app_iff. simpl in Hi |- *. tauto. }
    cbn [writeData]. unfold writeData_2310.
    eapply emitd_self; [apply A1; simpl; tauto|].
    eapply (emitd_lift (range_len _)); [reflexivity|].
    replace (length (map PX (combine (q_x r) x1))) with M.
    2:{ rewrite map_length, combine_length. unfold x1. rewrite Hcol by lia. fold M. lia. }
    apply emitd_for. intros m Hm. apply in_seq in Hm.
    apply (emitd_bind _ _ d2 [_] [_]).
    { apply emitd_x_aux; auto; try (apply A1; simpl; tauto); [| |apply Hla; lia].
      - unfold index2. rewrite (index_map PX _ m (at_ m (q_x r), at_ m x1)); [reflexivity|].
        rewrite (nth_error_nth' _ (NI 0, NI 0)); [|rewrite combine_length; unfold x1; rewrite Hcol by lia; fold M; lia].
        f_equal. apply combine_nth. unfold x1. rewrite Hcol by lia. reflexivity.
      - rewrite Hl1. apply A1. simpl. tauto. }
    assert (Em : nth_error (q_nx r) m = Some (nth m (q_nx r) 0%nat)) by (apply nth_error_nth'; lia).
    eapply emitd_self; [apply A1; simpl; tauto|].
    eapply emitd_lift; [rewrite (index_map (fun n => PInt (Z.of_nat n)) (q_nx r) m _ Em); reflexivity|].
    pose proof (Hp m ltac:(lia)) as Hpm. set (nx := nth m (q_nx r) 0%nat) in *.
    assert (Ern : range (Z.of_nat nx) = seq 0 nx) by (unfold range; now rewrite Nat2Z.id).
    rewrite Ern.
    replace (match seq 0 nx with [] => retW 0%Z | _ => self_int kNV end) with (self_int (num:=num) kNV) by (destruct nx; [lia|reflexivity]).
    eapply emitd_self_int; [apply A1; simpl; tauto|].
    eapply emitd_self; [apply A1; simpl; tauto|].
    rewrite <- Hvn. unfold range. rewrite Nat2Z.id.
    eapply emitd_lift.
    { apply (cat_items_ok o _ _ (fun pn => cell (q_v r) (snd pn) m (fst pn))).
      intros [p k] Hi. apply in_flat_map in Hi as (p' & Hp' & Hi). apply in_map_iff in Hi as (k' & E & Hk). injection E as -> ->.
      apply in_seq in Hp'. apply in_seq in Hk. cbn [fst snd]. unfold index3, index2.
      assert (Hk' : (k < length (q_v r))%nat) by lia.
      rewrite (index_map (fun v => PList (map nums_pv v)) _ k (nth k (q_v r) [])) by (apply nth_error_nth'; lia). cbn [bindR].
      pose proof (sized_len _ _ k Hvl Hk') as L1. pose proof (sized_at _ _ k m Hvl Hk' ltac:(lia)) as L2. fold nx in L2.
      rewrite (index_map nums_pv _ m (nth m (nth k (q_v r) []) [])) by (apply nth_error_nth'; lia).
      cbn [bindR]. apply index_nums. lia. }
    replace (map (fun pn : nat * nat => cell (q_v r) (snd pn) m (fst pn))
      (flat_map (fun p => map (fun n => (p, n)) (seq 0 (length (q_v r)))) (seq 0 nx))) with (rown (q_v r) m nx).
    { now apply emitd_line. }
    { unfold rown. generalize (seq 0 nx) as q. induction q as [|p q IH]; [reflexivity|].
      cbn [flat_map]. rewrite map_app, map_map, IH. reflexivity. }
  - now apply body2310n_one_line.
  - reflexivity.
  - now apply eats2310n.
  - unfold dr, read2310n, upd_aux; now destruct (map norm_var (q_aux r)).
  - cbn [setupArrays]. unfold setup_2110, h_int, h_list. rewrite Nv, Na, ND. cbn [as_int as_list bindR]. do 2 f_equal.
    { unfold empties, vst3. rewrite Nat2Z.id.
      replace (length (q_v r)) with (length (mixed (q_nx r) (map (map (map dn)) (q_v r)))) by (unfold mixed; now rewrite !map_length, seq_length).
      generalize (mixed (q_nx r) (map (map (map dn)) (q_v r))). clear. intros l.
      induction l as [|x l IH]; [reflexivity|]. cbn [length repeat map]. f_equal. exact IH. }
    now apply (pre_O_map g (q_vars r)).
  - intros m Hm. split; [discriminate|]. constructor; [eapply row_solid; eauto; discriminate|].
    constructor; auto. eapply row_solid; eauto. intros K. apply (f_equal (@length _)) in K. rewrite rown_length in K.
    pose proof (Hp m Hm). simpl in K. nia.
  - intros m rest Hm.
    pose proof (Forall2_nth _ _ _ m 0%nat (NI 0) Hcnt ltac:(lia)) as K0. cbv beta in K0.
    pose proof (Forall2_nth _ _ _ m (NI 0) (NI 0) Hst ltac:(rewrite Hcol; lia)) as (k0 & K1 & K2).
    do 2 eexists. cbn [readData1 readData2]. split.
    { change (nls [row o (at_ m (q_x r) :: col m (q_a r)); row o (rown (q_v r) m (nth m (q_nx r) 0%nat))] ++ rest)
        with (nls [row o (at_ m (q_x r) :: col m (q_a r))] ++ (nls [row o (rown (q_v r) m (nth m (q_nx r) 0%nat))] ++ rest)).
      eapply (readData1_2310_ok o Hd g Hf dr m _ _ _ _ _ _ _ (nth m (q_nx r) 0%nat) k0); try reflexivity; auto; lia. }
    etransitivity.
    { apply (readData2_2310n_ok dr m rest _ (q_nx r)); auto; [lia|].
      unfold nth_res. rewrite nth_error_app2 by (rewrite map_length, firstn_length; lia).
      rewrite map_length, firstn_length, Nat.min_l by lia. now rewrite Nat.sub_diag. }
    rewrite (firstn_S_nth xs' m (dn (at_ m (q_x r)), dn (at_ m x1))).
    2:{ rewrite (nth_error_nth' _ (NI 0, NI 0)) by lia. f_equal. unfold xs'. rewrite combine_nth by (rewrite !map_length; unfold x1; now rewrite Hcol by lia).
        f_equal; apply at_map; auto. unfold x1. now rewrite Hcol by lia. }
    rewrite (firstn_snoc_nth (q_nx r) m 0%nat) by lia.
    rewrite (firstn_snoc_nth (tl (q_dx r)) m (NI 0)) by lia. rewrite K1.
    rewrite (map_app PX), (map_app (fun k => PInt (Z.of_nat k))), (map_app (@pv num)). cbn [map pv].
    reflexivity.
  - cbn [store d_X d_V d_A d_NX d_DX]. unfold M in *.
    replace (vst3 (length (q_x r)) (mixed (q_nx r) (map (map (map dn)) (q_v r))))
      with (map (fun v => PList (map nums_pv v)) (mixed (q_nx r) (map (map (map dn)) (q_v r)))).
    2:{ unfold vst3. apply map_ext_in. intros v Hi. apply In_nth_error in Hi as (k & Hk). apply mixed_nth in Hk as [_ ->].
        rewrite firstn_all2; [reflexivity|]. rewrite map_length, seq_length. lia. } rewrite !full_cols by auto.
    rewrite !firstn_all2 by (rewrite ?map_length; lia).
    intros k. unfold dr, read2310n, items2310n. cbn [q_common q_vars q_aux read2310n_as q_dx q_xname q_x q_a q_v q_nx fst snd].
    replace (nth 1 (map (map dn) (q_a r)) []) with (map dn x1).
    2:{ symmetry. unfold x1. apply nth_map_lt. lia. }
    fold xs'.
    replace (match q_dx r with [] => [] | d :: t => head_num d :: t end) with (head_num (dx0n r) :: tl (q_dx r)).
    2:{ unfold dx0n. now destruct (q_dx r). }
    unfold upd_aux, aux_items. destruct (map norm_var (q_aux r)); destruct k; reflexivity.
Qed.
Theorem rt2310n r d nlh : ok2310n g r -> has d (items2310n r) -> attr d kNLHEAD = PInt nlh ->
  comes_back o C2310 d (items2310n (read2310n_as g r)).
Proof. intros. eapply comes_back_of, rt2310n_as; eauto. Qed.
End RT4n.
