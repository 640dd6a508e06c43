(** Round trip of FFI 2310 (one primary variable). *)
From Coq Require Import List NArith ZArith Bool Lia.
From Verif Require Import Py.Str Py.Res Py.Num Model.Dict Model.TextParser Model.CommonUtils
  Model.NAWrite Model.NARead Spec.TextSpec Spec.Records Spec.RoundTripSpec
  Proofs.StrLemmas Proofs.NumLemmas Proofs.TextLemmas Proofs.WriteFrame Proofs.WriteSim Proofs.RTText Proofs.RTHead Proofs.RTRead
  Proofs.RTData Proofs.RT1 Proofs.RT2 Proofs.RT3.
Import ListNotations.

Section RT4.
Context {num : Type} `{NumOps num}.
Variable o : opts num.
Hypothesis Hann : o_annot o = false.
Hypothesis Hd : delim_ok (o_delim o).
Hypothesis Hs : str_law.
Variable g : num -> num.
Hypothesis Hf : fmt_law (o_fmt o) g.
Local Notation dl := (o_delim o).
Local Notation number := (number num).
Local Notation dn := (data_num g).
Local Notation pyv := (pyv num).

Definition dx0 (r : r2310 num) : number := hd (NI 0) (r7_dx r).
Definition body2310 (r : r2310 num) : list str :=
  common_lines o (r7_common r) ++ [s_of (dx0 r)] ++
  [snd (r7_xname r); fst (r7_xname r)] ++
  var_lines o [r7_var r] ++ aux_lines o (r7_aux r) ++ comment_lines (r7_common r).
Lemma vars1_ok r : ok2310 g r -> vars_ok [r7_var r].
Proof. intros (_ & K & _). split; [discriminate|]. constructor; auto. Qed.
Lemma body2310_one_line r : ok2310 g r -> Forall one_line (body2310 r).
Proof.
  intros Hr. pose proof (vars1_ok r Hr) as Hv. destruct Hr as (Hc & _ & Ha & _ & Hx1 & Hx2 & _).
  unfold body2310. rewrite !Forall_app. repeat match goal with |- _ /\ _ => split end;
    auto using common_one_line, var_one_line, aux_one_line, comments_one_line.
  - constructor; auto. apply token_one_line, s_of_token, Hs.
  - apply names_one_line. auto.
Qed.
Definition mid2310 (r : r2310 num) (d : na num) : na num :=
  upd d kXNAME (strs_pv [snd (r7_xname r); fst (r7_xname r)]).
Lemma write2310 r d nlh f : has d (items2310 r) -> ok2310 g r -> attr d kNLHEAD = PInt nlh ->
  writeHeader o C2310 (mkW f [] d) =
  (Ok tt, mkW (f ++ unlines (header o 2310 (body2310 r))) (unlines (header o 2310 (body2310 r))) (mid2310 r d)).
Proof.
  intros Hh Hr Hn. pose proof (vars1_ok r Hr) as Hv.
  destruct Hr as (Hc & _ & Ha & _ & Hx1 & Hx2 & _ & _ & _ & _ & _ & _ & Hdx & _). pose proof (fun k v => has_attr d _ k v Hh) as A.
  unfold items2310 in Hh. apply has_app in Hh as [Hh1 Hh]. apply has_app in Hh as [Hh2 Hh].
  apply has_app in Hh as [Hh3 Hh].
  pose proof (fun k v => has_attr d _ k v Hh) as A1.
  unfold body2310. cbn [writeHeader]. unfold writeHeader_2310.
  assert (Niv : attr d kNIV = PInt 2) by (apply A; simpl; tauto).
  set (d2 := mid2310 r d).
  eapply (closes_start o 2310).
  - apply (emits_common o Hann 2310 2); eauto.
  - now apply common_one_line.
  - apply (closes_step o 2310 _ _ d [_] d).
    { intros f' h'. unfold bindW at 1. rewrite (wself_ok kDX (nums_pv (r7_dx r))) by (apply A1; simpl; tauto).
      unfold bindW at 1, liftW at 1. rewrite index_nums by (destruct (r7_dx r); [congruence|cbn; lia]).
      unfold bindW at 1, liftW at 1. rewrite fmt_s_pv.
      replace (at_ 0 (r7_dx r)) with (dx0 r) by (unfold dx0, at_; now destruct (r7_dx r)). now apply hwrap_emits. }
    { constructor; auto. apply token_one_line, s_of_token, Hs. }
    eapply (closes_step o 2310 _ _ d [] d2); [|constructor|].
    { apply (emits_reverse kXNAME [PStr (fst (r7_xname r)); PStr (snd (r7_xname r))]).
      change (attr d kXNAME = PList [PStr (fst (r7_xname r)); PStr (snd (r7_xname r))]). apply A1. simpl; tauto. }
    eapply (closes_step o 2310 _ _ d2 [_; _] d2).
    { apply (emits_lines_block o Hann _ kNIV kXNAME 2%Z); try reflexivity. exact Niv. }
    { apply names_one_line. auto. }
    assert (P : forall items, has d items -> ~ In kXNAME (map fst items) -> has d2 items).
    { intros items K1 K2. unfold d2, mid2310. apply has_upd; auto. }
    apply (closes_step o 2310 _ _ d2 _ d2).
    { apply emits_vars; auto. apply P; auto; simpl; intuition discriminate. } { now apply var_one_line. }
    apply (closes_step o 2310 _ _ d2 _ d2).
    { apply emits_aux; auto. apply P; auto; unfold aux_items; destruct (r7_aux r); simpl; intuition discriminate. }
    { now apply aux_one_line. }
    rewrite <- (app_nil_r (comment_lines _)).
    apply (closes_step o 2310 _ _ d2 _ d2).
    { apply (emits_comments o Hann 2310 2). apply P; auto; simpl; intuition discriminate. }
    { now apply comments_one_line. }
    apply closes_end; auto. change (attr d kFFI = PInt 2310). apply A; simpl; tauto.
Qed.

Definition read2310 (n : Z) (r : r2310 num) : na num :=
  upd_comments (r7_common r) (upd_aux (map norm_var (r7_aux r)) (upd_vars (map norm_var [r7_var r])
    (upd (upd (upd_common n 2310 (r7_common r) na_new)
      kDX (nums_pv [head_num (dx0 r)])) kXNAME (strs_pv [fst (r7_xname r); snd (r7_xname r)])))).
Lemma eats2310 r : ok2310 g r ->
  eats (readHeader C2310 0) na_new (header o 2310 (body2310 r)) (read2310 (Z.of_nat (S (length (body2310 r)))) r) tt.
Proof.
  intros Hr. pose proof (vars1_ok r Hr) as Hv. destruct Hr as (Hc & _ & Ha & _ & Hx1 & Hx2 & _).
  unfold header. set (n := Z.of_nat _). clearbody n.
  unfold body2310, read2310. cbn [readHeader]. unfold readHeader_2310.
  rewrite app_comm_cons.
  eapply (eats_seq _ _ _ (_ :: common_lines o _)); [eapply (eats_common dl); auto|].
  eapply (eats_bind _ _ _ [] _ 2%Z); [apply eats_get_int; reflexivity|].
  eapply (eats_seq _ _ _ [_]).
  { apply (eats_set_list _ PList). apply (eats_num_line dl Hd Hs o eq_refl [dx0 r]); [discriminate|reflexivity]. }
  eapply (eats_seq _ _ _ [_; _]).
  { apply (eats_set_list _ (fun l => PList (rev l))). apply eats_names; [|reflexivity]. auto. }
  eapply (eats_seq _ _ _ (var_lines o _)); [eapply (eats_vars dl); auto|].
  eapply (eats_seq _ _ _ (aux_lines o _)); [eapply (eats_aux dl); auto|].
  apply eats_comments.
Qed.

(** ** Data *)
Lemma int_of_dn a : int_of (pv (dn a)) = match num_trunc (g (val a)) with Some z => Ok z | None => Err EValueError end.
Proof. reflexivity. Qed.
Lemma readData1_2310_ok h m rest (x a0 a1 a2 : number) X V n0 k0 as_ NX DX : attr h kNAUXV = PInt (Z.of_nat (length as_)) ->
  Forall (fun c => m < length c)%nat as_ -> (3 <= length as_)%nat ->
  a0 = at_ m (nth 0 as_ []) -> a1 = at_ m (nth 1 as_ []) -> a2 = at_ m (nth 2 as_ []) ->
  num_trunc (g (val a0)) = Some (Z.of_nat n0) -> num_trunc (g (val a2)) = Some k0 ->
  readData1_2310 h (nls [row o (x :: col m as_)] ++ rest) m (mkD X V (pre m (map (map dn) as_)) NX DX) =
  Ok (mkD (X ++ [PList [pv (dn x); nums_pv [dn a1]]]) V (pre (S m) (map (map dn) as_)) (NX ++ [PInt (Z.of_nat n0)]) (DX ++ [PInt k0]), rest).
Proof.
  intros En Ha Hl E0 E1 E2 Hc Hk. unfold readData1_2310, h_int. rewrite En. cbn [as_int bindR].
  rewrite (items_row o Hd g Hf); [|discriminate|cbn [length]; unfold col; rewrite map_length; lia].
  cbn [bindR map]. unfold nth_res at 1. cbn [nth_error of_opt bindR skipn d_A].
  rewrite <- col_map by auto. rewrite <- (map_length (map dn) as_).
  rewrite append_each_ok by now apply lens_map. cbn [bindR].
  destruct as_ as [|c0 [|c1 [|c2 as_]]]; cbn [length] in Hl; try lia. cbn [nth] in E0, E1, E2.
  inversion Ha as [|? ? L0 Ha1]; subst. inversion Ha1 as [|? ? L1 Ha2]; subst. inversion Ha2 as [|? ? L2 _]; subst.
  cbn [map col]. unfold nth_res. cbn [nth_error of_opt bindR].
  rewrite !at_map by auto. rewrite !int_of_dn, Hc. cbn [bindR]. rewrite Hk. reflexivity.
Qed.

Lemma Forall2_nth {A B} (P : A -> B -> Prop) l l' m a b : Forall2 P l l' -> (m < length l)%nat -> P (nth m l a) (nth m l' b).
Proof.
  intros K. revert m. induction K as [|x y l l' Hxy _ IH]; intros m Hm; [simpl in Hm; lia|].
  destruct m; simpl in *; auto. apply IH. lia.
Qed.

Definition lines2310 (r : r2310 num) : list str :=
  header o 2310 (body2310 r) ++ concat (map (fun m => [row o (at_ m (r7_x r) :: col m (r7_a r)); row o (nth m (r7_v r) [])]) (seq 0 (length (r7_x r)))).
Theorem rt2310_as r d nlh : ok2310 g r -> has d (items2310 r) -> attr d kNLHEAD = PInt nlh ->
  comes_back_as o C2310 d (items2310 (norm2310 g r)) (lines2310 r).
Proof.
  intros Hr Hh Hn. pose proof (fun k v => has_attr d _ k v Hh) as A.
  pose proof Hr as (Hc & Hv & Ha & Ha3 & Hx1 & Hx2 & Hl1 & Hl2 & Hl3 & Hpos & Hcnt & Hvl & Hdx & Hst).
  set (M := length (r7_x r)) in *. set (n := Z.of_nat (S (length (body2310 r)))).
  assert (Hla : forall m, (m < M)%nat -> Forall (fun c => m < length c)%nat (r7_a r)) by (intros m; now apply lens_lt).
  assert (Hcol : forall i, (i < length (r7_a r))%nat -> length (nth i (r7_a r) []) = M).
  { intros i Hi. rewrite Forall_forall in Hl3. apply Hl3, nth_In, Hi. }
  assert (Hlv : length (r7_v r) = M).
  { rewrite <- Hl2. clear - Hvl. induction Hvl; cbn [length]; congruence. }
  assert (Hlvm : forall m, (m < M)%nat -> length (nth m (r7_v r) []) = nth m (r7_nx r) 0%nat).
  { intros m Hm. apply (Forall2_nth _ _ _ m 0%nat [] Hvl). lia. }
  assert (Hp : forall m, (m < M)%nat -> (0 < nth m (r7_nx r) 0)%nat).
  { intros m Hm. rewrite Forall_forall in Hpos. apply Hpos, nth_In. lia. }
  assert (Hlt : length (tl (r7_dx r)) = M).
  { rewrite <- (Hcol 2%nat) by lia. clear - Hst. induction Hst; cbn [length]; congruence. }
  set (dr := read2310 n r). set (x1 := nth 1 (r7_a r) []) in *.
  set (xs' := combine (map dn (r7_x r)) (map dn x1)).
  assert (Hxl : length xs' = M) by (unfold xs'; rewrite combine_length, !map_length; unfold x1; rewrite Hcol by lia; fold M; lia).
  assert (Nv : attr dr kNV = PInt 1).
  { unfold dr, read2310, upd_aux; now destruct (map norm_var (r7_aux r)). }
  assert (Na : attr dr kNAUXV = PInt (Z.of_nat (length (r7_a r)))).
  { apply (attr_len dr kNAUXV (map norm_var (r7_aux r))); [unfold dr, read2310, upd_aux; now destruct (map norm_var (r7_aux r))|now rewrite map_length]. }
  assert (ND : attr dr kDX = PList [pv (head_num (dx0 r))]).
  { unfold dr, read2310, upd_aux; now destruct (map norm_var (r7_aux r)). }
  pose (PX := fun p : number * number => PList [pv (fst p); nums_pv [snd p]]).
  apply (comes_back_intro o Hd C2310 d 2310 (body2310 r) (mid2310 r d) (mid2310 r d) dr _
    (fun m => [row o (at_ m (r7_x r) :: col m (r7_a r)); row o (nth m (r7_v r) [])])
    (fun m => mkD (map PX (firstn m xs')) [PList (map nums_pv (firstn m (map (map dn) (r7_v r))))] (pre m (map (map dn) (r7_a r)))
       (map (fun k => PInt (Z.of_nat k)) (firstn m (r7_nx r))) (pv (head_num (dx0 r)) :: map pv (firstn m (tl (r7_dx r))))) M).
  - intros f. eapply write2310; eauto.
  - match goal with |- forall f h, _ = (Ok tt, mkW (f ++ unlines ?L) h ?d1) => change (emitd (writeData o C2310) d1 L) end.
    set (d2 := mid2310 r d).
    assert (A3 : forall k, k <> kXNAME -> attr d2 k = attr d k).
    { intros k K2. destruct k; try reflexivity; congruence. }
    clearbody d2.
    assert (A1 : forall k v, In (k, v) [(kX, PList (map PX (combine (r7_x r) x1))); (kNX, PList (map (fun n => PInt (Z.of_nat n)) (r7_nx r)));
      (kA, PList (map nums_pv (r7_a r)));
      (kV, PList [PList (map nums_pv (r7_v r))]); (kNAUXV, PInt (Z.of_nat (length (r7_aux r)))); (kNV, PInt 1)] -> attr d2 k = v).
    { intros k v Hi. rewrite A3; [|intros ->; simpl in Hi; intuition discriminate].
      apply A. unfold items2310. rewrite !in_app_iff. simpl in Hi |- *. tauto. }
    cbn [writeData]. unfold writeData_2310.
    eapply emitd_self; [apply A1; simpl; tauto|].
    eapply (emitd_lift (range_len _)); [reflexivity|].
    replace (length (map PX (combine (r7_x r) x1))) with M.
    2:{ rewrite map_length, combine_length. unfold x1. rewrite Hcol by lia. fold M. lia. }
    apply emitd_for. intros m Hm. apply in_seq in Hm.
    apply (emitd_bind _ _ d2 [_] [_]).
    { apply emitd_x_aux; auto; try (apply A1; simpl; tauto); [| |apply Hla; lia].
      - unfold index2. rewrite (index_map PX _ m (at_ m (r7_x r), at_ m x1)); [reflexivity|].
        rewrite (nth_error_nth' _ (NI 0, NI 0)); [|rewrite combine_length; unfold x1; rewrite Hcol by lia; fold M; lia].
        f_equal. apply combine_nth. unfold x1. rewrite Hcol by lia. reflexivity.
      - rewrite Hl1. apply A1. simpl. tauto. }
    assert (Em : nth_error (r7_nx r) m = Some (nth m (r7_nx r) 0%nat)) by (apply nth_error_nth'; lia).
    eapply emitd_self; [apply A1; simpl; tauto|].
    eapply emitd_lift; [rewrite (index_map (fun n => PInt (Z.of_nat n)) (r7_nx r) m _ Em); reflexivity|].
    assert (Ern : range (Z.of_nat (nth m (r7_nx r) 0%nat)) = seq 0 (length (nth m (r7_v r) []))).
    { unfold range. now rewrite Nat2Z.id, Hlvm by lia. }
    rewrite Ern.
    replace (match seq 0 (length (nth m (r7_v r) [])) with [] => retW 0%Z | _ => self_int kNV end) with (self_int (num:=num) kNV).
    2:{ rewrite Hlvm by lia. pose proof (Hp m ltac:(lia)). destruct (nth m (r7_nx r) 0%nat); [lia|reflexivity]. }
    eapply emitd_self_int; [apply A1; simpl; tauto|].
    eapply emitd_self; [apply A1; simpl; tauto|].
    eapply emitd_lift.
    { apply (cat_items_ok o _ _ (fun pn => at_ (fst pn) (nth m (r7_v r) []))).
      intros [p k] Hi. apply in_flat_map in Hi as (p' & Hp' & Hi). cbn in Hi. destruct Hi as [Hi|[]]. injection Hi as <- <-.
      apply in_seq in Hp'. cbn [fst snd]. unfold index3, index2.
      change (index (PList [PList (map nums_pv (r7_v r))]) 0) with (Ok (PList (map (@nums_pv num) (r7_v r)))). cbn [bindR].
      rewrite (index_map nums_pv _ m (nth m (r7_v r) [])) by (apply nth_error_nth'; lia).
      cbn [bindR]. apply index_nums. lia. }
    replace (map (fun pn : nat * nat => at_ (fst pn) (nth m (r7_v r) []))
      (flat_map (fun p => map (fun n => (p, n)) (range 1)) (seq 0 (length (nth m (r7_v r) []))))) with (nth m (r7_v r) []).
    { now apply emitd_line. }
    { generalize (nth m (r7_v r) []) as l. intros l.
      transitivity (map (fun p => at_ p l) (seq 0 (length l))).
      - clear. induction l as [|x l IH]; [reflexivity|]. cbn [length seq map]. f_equal.
        rewrite <- seq_shift, map_map. exact IH.
      - change (range 1) with [0%nat]. generalize (seq 0 (length l)) as q.
        induction q as [|p q IH]; [reflexivity|]. cbn [map flat_map app]. f_equal. exact IH. }
  - now apply body2310_one_line.
  - reflexivity.
  - now apply eats2310.
  - unfold dr, read2310, upd_aux; now destruct (map norm_var (r7_aux r)).
  - cbn [setupArrays]. unfold setup_2110, h_int, h_list. rewrite Nv, Na, ND. cbn [as_int as_list bindR]. do 2 f_equal.
    now apply (pre_O_map g [r7_var r]).
  - intros m Hm. split; [discriminate|]. constructor; [eapply row_solid; eauto; discriminate|].
    constructor; auto. eapply row_solid; eauto. intros K. apply (f_equal (@length _)) in K. rewrite Hlvm in K by auto.
    pose proof (Hp m Hm). simpl in K. lia.
  - intros m rest Hm.
    pose proof (Forall2_nth _ _ _ m 0%nat (NI 0) Hcnt ltac:(lia)) as K0. cbv beta in K0.
    pose proof (Forall2_nth _ _ _ m (NI 0) (NI 0) Hst ltac:(rewrite Hcol; lia)) as (k0 & K1 & K2).
    do 2 eexists. cbn [readData1 readData2]. split.
    { change (nls [row o (at_ m (r7_x r) :: col m (r7_a r)); row o (nth m (r7_v r) [])] ++ rest)
        with (nls [row o (at_ m (r7_x r) :: col m (r7_a r))] ++ (nls [row o (nth m (r7_v r) [])] ++ rest)).
      eapply (readData1_2310_ok dr m _ _ _ _ _ _ _ (nth m (r7_nx r) 0%nat) k0); try reflexivity; auto; lia. }
    unfold readData2_2310, h_int. rewrite Nv. cbn [as_int bindR d_NX d_V].
    unfold nth_res at 1. rewrite nth_error_app2 by (rewrite map_length, firstn_length; lia).
    rewrite map_length, firstn_length, Nat.min_l by lia. rewrite Nat.sub_diag. cbn [nth_error of_opt bindR as_int].
    rewrite (items_row o Hd g Hf).
    2:{ intros K. apply (f_equal (@length _)) in K. rewrite Hlvm in K by auto. pose proof (Hp m Hm). simpl in K. lia. }
    2:{ rewrite Hlvm by auto. lia. }
    change (range 1) with [0%nat]. cbn [bindR forR modify_nth app_item].
    set (v := nth m (r7_v r) []).
    assert (Ev : nth_error (map (map dn) (r7_v r)) m = Some (map dn v)).
    { rewrite nth_error_map. unfold v. now rewrite (nth_error_nth' _ []) by lia. }
    rewrite (firstn_S_nth _ _ _ Ev).
    match goal with |- context [forR (range ?z) ?body ?ini] =>
      assert (E : forR (range z) body ini = Ok [PList (map nums_pv (firstn m (map (map dn) (r7_v r)) ++ [map dn v]))]) end.
    { pose proof (forR_inv (fun i V => bindR (nth_res (map pv (map dn v)) (0 * Z.to_nat (Z.of_nat (nth m (r7_nx r) 0%nat)) + i))
          (fun y => modify_nth V 0 (fun vn => modify_in vn m (app_item y))))
        (fun i => [PList (map nums_pv (firstn m (map (map dn) (r7_v r)) ++ [firstn i (map dn v)]))]) (length v)) as K.
      cbv beta in K. unfold range. rewrite Nat2Z.id, <- Hlvm by auto. fold v.
      rewrite Nat2Z.id, <- Hlvm in K by auto. fold v in K. rewrite map_app, (firstn_O (map dn v)) in K.
      etransitivity; [apply K|].
      2:{ rewrite (firstn_all2 (map dn v)) by (rewrite map_length; lia). reflexivity. }
      { intros i Hi. cbn [Nat.mul Nat.add].
        rewrite (nth_res_map pv _ i (at_ i (map dn v))) by (apply at_error; rewrite map_length; auto).
        cbn [bindR modify_nth]. rewrite map_app. cbn [map].
        rewrite modify_in_app by (rewrite map_length, firstn_length, map_length; lia).
        unfold nums_pv at 2. cbn [app_item bindR]. rewrite (firstn_at (map dn v)) by now rewrite map_length.
        rewrite map_app. cbn [map]. unfold nums_pv. rewrite (map_app pv (firstn i _)). reflexivity. } }
    rewrite E. cbn [bindR]. unfold set_V. cbn [d_X d_V d_A d_NX d_DX].
    rewrite (firstn_S_nth xs' m (dn (at_ m (r7_x r)), dn (at_ m x1))).
    2:{ rewrite (nth_error_nth' _ (NI 0, NI 0)) by lia. f_equal. unfold xs'. rewrite combine_nth by (rewrite !map_length; unfold x1; now rewrite Hcol by lia).
        f_equal; apply at_map; auto. unfold x1. now rewrite Hcol by lia. }
    rewrite (firstn_snoc_nth (r7_nx r) m 0%nat) by lia.
    rewrite (firstn_snoc_nth (tl (r7_dx r)) m (NI 0)) by lia. rewrite K1.
    rewrite (map_app PX), (map_app (fun k => PInt (Z.of_nat k))), (map_app (@pv num)). cbn [map pv].
    reflexivity.
  - cbn [store d_X d_V d_A d_NX d_DX]. unfold M in *. rewrite !full_cols by auto.
    rewrite !firstn_all2 by (rewrite ?map_length; lia).
    intros k. unfold dr, read2310, items2310. cbn [r7_common r7_var r7_aux norm2310 r7_dx r7_xname r7_x r7_a r7_v r7_nx fst snd].
    replace (nth 1 (map (map dn) (r7_a r)) []) with (map dn x1).
    2:{ symmetry. unfold x1. apply nth_map_lt. lia. }
    fold xs'.
    replace (match r7_dx r with [] => [] | d :: t => head_num d :: t end) with (head_num (dx0 r) :: tl (r7_dx r)).
    2:{ unfold dx0. now destruct (r7_dx r). }
    unfold upd_aux, aux_items. destruct (map norm_var (r7_aux r)); destruct k; reflexivity.
Qed.
Theorem rt2310 r d nlh : ok2310 g r -> has d (items2310 r) -> attr d kNLHEAD = PInt nlh ->
  comes_back o C2310 d (items2310 (norm2310 g r)).
Proof. intros. eapply comes_back_of, rt2310_as; eauto. Qed.
End RT4.
