(** Round trip of FFI 2110. *)
From Coq Require Import List NArith ZArith Bool Lia.
From Verif Require Import Py.Str Py.Res Py.Num Model.Dict Model.TextParser Model.CommonUtils
  Model.NAWrite Model.NARead Spec.TextSpec Spec.Records Spec.RoundTripSpec
  Proofs.StrLemmas Proofs.NumLemmas Proofs.TextLemmas Proofs.WriteFrame Proofs.WriteSim Proofs.RTText Proofs.RTHead Proofs.RTRead
  Proofs.RTData Proofs.RT1 Proofs.RT2.
Import ListNotations.

Section RT3.
Context {num : Type} `{NumOps num}.
Variable o : opts num.
Hypothesis Hann : o_annot o = false.
Hypothesis Hd : delim_ok (o_delim o).
Hypothesis Hs : str_law.
Variable g : num -> num.
Hypothesis Hf : fmt_law (o_fmt o) g.
Local Notation dl := (o_delim o).
Local Notation number := (number num).
Local Notation dn := (data_num g).
Local Notation pyv := (pyv num).

(** ** Loops over columns *)
Lemma forR_map {A} (f f' : A -> pyv) (body : nat -> list pyv -> Res (list pyv)) (vs : list A) :
  (forall i v a b, nth_error vs i = Some v -> length a = i -> body i (a ++ f v :: b) = Ok (a ++ f' v :: b)) ->
  forR (seq 0 (length vs)) body (map f vs) = Ok (map f' vs).
Proof.
  intros Hb. rewrite <- (map_length f vs). apply forR_cols; [now rewrite !map_length|].
  intros i a b Ha Hi. rewrite map_length in Hi. destruct (nth_error vs i) as [v|] eqn:E.
  - rewrite (nth_error_nth (map f vs) i PNone (x:=f v)) by now rewrite nth_error_map, E.
    rewrite (nth_error_nth (map f' vs) i PNone (x:=f' v)) by now rewrite nth_error_map, E. now apply Hb.
  - apply nth_error_None in E. lia.
Qed.
Lemma modify_in_app (a : list pyv) x b n f : length a = n -> modify_in (PList (a ++ x :: b)) n f =
  bindR (f x) (fun y => Ok (PList (a ++ y :: b))).
Proof. intros <-. cbn [modify_in]. rewrite modify_nth_app. now destruct (f x). Qed.

(** ** Blocks: the values of all variables at mark [m], point [p]. *)
Definition pts (m : nat) (vs : list (list (list number))) : list (list number) := map (fun v => nth m v []) vs.
Definition inner (m : nat) (xin : list number) (vs : list (list (list number))) : list (list number) :=
  map (fun p => at_ p xin :: col p (pts m vs)) (seq 0 (length xin)).
(** what has been read after [m] marks *)
Definition vst3 (m : nat) (vs : list (list (list number))) : list pyv :=
  map (fun v => PList (map nums_pv (firstn m v))) vs.

Lemma at_error (c : list number) m : (m < length c)%nat -> nth_error c m = Some (at_ m c).
Proof. intros Hm. unfold at_. now apply nth_error_nth'. Qed.

Lemma inner_lens {X} (xs : list (mark num X)) v m : inner_ok xs v -> (m < length xs)%nat ->
  (m < length v)%nat /\ length (nth m v []) = length (nth m (map m_in xs) []).
Proof.
  intros Hi. revert m. induction Hi as [|x l xs v E _ IH]; intros m Hm; [simpl in Hm; lia|].
  destruct m; simpl in *; [split; [lia|exact E]|]. destruct (IH m ltac:(lia)). split; [lia|auto].
Qed.

Lemma emitd_inner {X} (P : X -> pyv) (xs : list (mark num X)) vs m d :
  attr d kNX = PList (map (fun k => len_pv (m_in k)) xs) -> attr d kNV = PInt (Z.of_nat (length vs)) ->
  attr d kV = PList (map (fun v => PList (map nums_pv v)) vs) ->
  (m < length xs)%nat -> Forall (inner_ok xs) vs ->
  emitd (write_inner_2110 o (PList (map (mark_pv P) xs)) m) d (map (row o) (inner m (nth m (map m_in xs) []) vs)).
Proof.
  intros E1 E2 E3 Hm Hv. unfold write_inner_2110.
  destruct (nth_error xs m) as [x|] eqn:Ex; [|apply nth_error_None in Ex; lia].
  assert (Ei : nth m (map m_in xs) [] = m_in x) by (apply nth_error_nth; now rewrite nth_error_map, Ex).
  assert (Hl : Forall (fun v => m < length v /\ length (nth m v []) = length (m_in x))%nat vs).
  { eapply Forall_impl; [|exact Hv]. intros v Hi. rewrite <- Ei. now apply inner_lens. }
  rewrite Ei. eapply emitd_self; [exact E1|].
  eapply emitd_lift; [rewrite (index_map (fun k => len_pv (m_in k)) xs m x Ex); reflexivity|].
  unfold inner, range. rewrite Nat2Z.id, map_map.
  replace (map (fun p => row o (at_ p (m_in x) :: col p (pts m vs))) (seq 0 (length (m_in x))))
    with (concat (map (fun p => [row o (at_ p (m_in x) :: col p (pts m vs))]) (seq 0 (length (m_in x))))).
  2:{ generalize (seq 0 (length (m_in x))) as l. induction l as [|p l IH]; [reflexivity|]. cbn [map concat app]. f_equal. exact IH. }
  apply emitd_for. intros p Hp. apply in_seq in Hp.
  eapply emitd_lift.
  { apply (cat_items_ok o [p] _ (fun p => at_ p (m_in x))). intros q [<-|[]]. unfold index3, index2.
    rewrite (index_map (mark_pv P) xs m x Ex). cbn [bindR]. apply index_nums. lia. }
  eapply emitd_self_int; [exact E2|]. eapply emitd_self; [exact E3|].
  eapply emitd_lift.
  { apply (cat_items_ok o _ _ (fun n => at_ p (nth n (pts m vs) []))).
    unfold range. rewrite Nat2Z.id. intros n Hn. apply in_seq in Hn. unfold index3, index2.
    assert (En : nth_error vs n = Some (nth n vs [])) by (apply nth_error_nth'; lia).
    rewrite (index_map (fun v => PList (map nums_pv v)) vs n _ En). cbn [bindR].
    rewrite Forall_forall in Hl. destruct (Hl (nth n vs [])) as [L1 L2]; [apply nth_In; lia|].
    rewrite (index_map nums_pv _ m (nth m (nth n vs []) [])) by now apply nth_error_nth'.
    cbn [bindR]. unfold pts. rewrite (nth_map_lt _ vs n []) by lia. apply index_nums. lia. }
  unfold range. rewrite Nat2Z.id.
  replace (length vs) with (length (pts m vs)) by (unfold pts; apply map_length). rewrite col_seq.
  rewrite <- cells_app. cbn [map app]. apply emitd_line; auto.
Qed.

Lemma firstn_snoc_nth {A} (l : list A) m d : (m < length l)%nat -> firstn (S m) l = firstn m l ++ [nth m l d].
Proof. intros Hm. apply firstn_S_nth. now apply nth_error_nth'. Qed.

Lemma readData2_2110_ok h m rest x done done_nx xin (vs : list (list (list number))) A DX :
  attr h kNV = PInt (Z.of_nat (length vs)) -> length done = m -> length done_nx = m ->
  Forall (fun v => m < length v /\ length (nth m v []) = length xin)%nat vs ->
  readData2_2110 h (nls (map (row o) (inner m xin vs)) ++ rest) m
    (mkD (done ++ [PList [x; PList []]]) (vst3 m (map (map (map dn)) vs)) A (done_nx ++ [len_pv xin]) DX) =
  Ok (mkD (done ++ [PList [x; nums_pv (map dn xin)]]) (vst3 (S m) (map (map (map dn)) vs)) A (done_nx ++ [len_pv xin]) DX, rest).
Proof.
  intros En Hx Hx2 Hvs. unfold readData2_2110, h_int. rewrite En. cbn [as_int bindR d_V d_NX d_X].
  set (vs' := map (map (map dn)) vs).
  assert (Hl : length vs = length vs') by (unfold vs'; now rewrite map_length).
  assert (Hvs' : Forall (fun v => m < length v /\ length (nth m v []) = length xin)%nat vs').
  { unfold vs'. apply Forall_map. eapply Forall_impl; [|exact Hvs]. intros v [K1 K2]. rewrite map_length. split; auto.
    rewrite (nth_map_lt (map dn) v m []) by auto. now rewrite map_length. }
  pose (f := fun i (v : list (list number)) => PList (map nums_pv (firstn m v) ++ [nums_pv (firstn i (nth m v []))])).
  assert (E0 : forR (range (Z.of_nat (length vs))) (fun n V => modify_nth V n (app_item (PList []))) (vst3 m vs') = Ok (map (f 0%nat) vs')).
  { unfold range. rewrite Nat2Z.id, Hl. unfold vst3. apply forR_map. intros i v a b _ <-.
    rewrite modify_nth_app. cbn [app_item bindR]. unfold f. now rewrite firstn_O. }
  rewrite E0. cbn [bindR]. clear E0.
  unfold nth_res at 1. rewrite nth_error_app2 by lia. replace (m - length done_nx)%nat with 0%nat by lia.
  cbn [nth_error of_opt bindR len_pv as_int]. unfold range at 1. rewrite Nat2Z.id.
  pose (P := fun i => (done ++ [PList [x; nums_pv (firstn i (map dn xin))]], map (f i) vs',
     nls (map (row o) (map (fun p => at_ p xin :: col p (pts m vs)) (seq i (length xin - i)))) ++ rest)).
  match goal with |- bindR (forR _ ?body _) _ = _ => assert (E : forR (seq 0 (length xin)) body (P 0%nat) = Ok (P (length xin))) end.
  { apply (forR_inv _ P). intros i Hi. unfold P.
    replace (length xin - i)%nat with (S (length xin - S i)) by lia. cbn [seq map]. rewrite nls_cons. cbn [app].
    match goal with |- context [items_from (?a :: ?b ++ ?c)] => change (a :: b ++ c) with (nls [row o (at_ i xin :: col i (pts m vs))] ++ (b ++ c)) end.
    rewrite (items_row o Hd g Hf); [|discriminate|cbn [length]; unfold col, pts; rewrite !map_length; lia].
    cbn [bindR map]. unfold nth_res at 1. cbn [nth_error of_opt bindR].
    rewrite <- Hx at 1. rewrite modify_nth_app. unfold nums_pv at 1. 
    cbn [modify_in modify_nth app_item bindR]. cbn [skipn].
    match goal with |- bindR ?L _ = _ => assert (E : L = Ok (map (f (S i)) vs')) end.
    { unfold range. rewrite Nat2Z.id, Hl. apply forR_map. intros n v a b Ev Ha.
      assert (Ev2 : exists w, nth_error vs n = Some w /\ v = map (map dn) w).
      { unfold vs' in Ev. rewrite nth_error_map in Ev. destruct (nth_error vs n) as [w|]; [|discriminate].
        exists w. split; auto. now injection Ev. }
      destruct Ev2 as (w & Ew & ->).
      rewrite (nth_res_map pv _ n (at_ i (nth m (map (map dn) w) []))).
      2:{ unfold col, pts. rewrite !nth_error_map, Ew. cbn [option_map]. f_equal.
          rewrite Forall_forall in Hvs. destruct (Hvs w) as [L1 L2]; [eapply nth_error_In; eauto|].
          rewrite (nth_map_lt (map dn) w m []) by auto. symmetry. apply at_map. lia. }
      cbn [bindR]. rewrite <- Ha. rewrite modify_nth_app. unfold f at 1.
      rewrite Forall_forall in Hvs'. destruct (Hvs' (map (map dn) w)) as [L1 L2]; [eapply nth_error_In; eauto|].
      rewrite modify_in_app by (rewrite map_length, firstn_length; lia).
      unfold nums_pv at 2. cbn [app_item bindR]. unfold f.
      rewrite firstn_at by lia. unfold nums_pv. rewrite !map_app. reflexivity. }
    rewrite E. cbn [bindR]. 
    rewrite (firstn_at (map dn xin)) by now rewrite map_length. rewrite at_map by auto.
    unfold nums_pv. rewrite map_app. reflexivity. }
  unfold P in E. rewrite Nat.sub_0_r, firstn_O in E. unfold inner. change (nums_pv (@nil number)) with (@PList num []) in E. rewrite E. cbn [bindR].
  rewrite Nat.sub_diag. cbn [seq map nls app]. unfold set_V, set_X. cbn [d_X d_V d_A d_NX d_DX].
  rewrite firstn_all2 by now rewrite map_length. do 3 f_equal.
  unfold vst3. apply map_ext_in. intros v Hi. unfold f. rewrite Forall_forall in Hvs'. destruct (Hvs' v Hi) as [L1 L2].
  rewrite (firstn_snoc_nth v m []) by auto. rewrite map_app. cbn [map]. rewrite (firstn_all2 (nth m v [])) by lia. reflexivity.
Qed.

(** ** Header *)
Definition body2110 (r : r2110 num) : list str :=
  common_lines o (r5_common r) ++ [num_line o [snd (r5_dx r); fst (r5_dx r)]] ++
  [snd (r5_xname r); fst (r5_xname r)] ++
  var_lines o (r5_vars r) ++ aux_lines o (r5_aux r) ++ comment_lines (r5_common r).
Lemma body2110_one_line r : ok2110 g r -> Forall one_line (body2110 r).
Proof.
  intros (Hc & Hv & Ha & _ & Hx1 & Hx2 & _).
  unfold body2110. rewrite !Forall_app. repeat match goal with |- _ /\ _ => split end;
    auto using common_one_line, var_one_line, aux_one_line, comments_one_line.
  - constructor; auto. now apply num_line_one_line.
  - apply names_one_line. auto.
Qed.
Definition mid2110 (r : r2110 num) (d : na num) : na num :=
  upd (upd d kDX (nums_pv [snd (r5_dx r); fst (r5_dx r)])) kXNAME (strs_pv [snd (r5_xname r); fst (r5_xname r)]).
Lemma write2110 r d nlh f : has d (items2110 r) -> ok2110 g r -> attr d kNLHEAD = PInt nlh ->
  writeHeader o C2110 (mkW f [] d) =
  (Ok tt, mkW (f ++ unlines (header o 2110 (body2110 r))) (unlines (header o 2110 (body2110 r))) (mid2110 r d)).
Proof.
  intros Hh (Hc & Hv & Ha & _ & Hx1 & Hx2 & _) Hn. pose proof (fun k v => has_attr d _ k v Hh) as A.
  unfold items2110 in Hh. apply has_app in Hh as [Hh1 Hh]. apply has_app in Hh as [Hh2 Hh].
  apply has_app in Hh as [Hh3 Hh].
  pose proof (fun k v => has_attr d _ k v Hh) as A1.
  unfold body2110. cbn [writeHeader]. unfold writeHeader_2110.
  assert (Niv : attr d kNIV = PInt 2) by (apply A; simpl; tauto).
  set (d1 := upd d kDX (nums_pv [snd (r5_dx r); fst (r5_dx r)])). set (d2 := mid2110 r d).
  eapply (closes_start o 2110).
  - apply (emits_common o Hann 2110 2); eauto.
  - now apply common_one_line.
  - eapply (closes_step o 2110 _ _ d [] d1); [|constructor|].
    { apply (emits_reverse kDX [pv (fst (r5_dx r)); pv (snd (r5_dx r))]). apply A1. simpl; tauto. }
    apply (closes_step o 2110 _ _ d1 [_] d1).
    { apply (emits_sep_block o Hann _ _ _ 2%Z [snd (r5_dx r); fst (r5_dx r)]); try reflexivity; [exact Niv|lia]. }
    { constructor; auto. now apply num_line_one_line. }
    eapply (closes_step o 2110 _ _ d1 [] d2); [|constructor|].
    { apply (emits_reverse kXNAME [PStr (fst (r5_xname r)); PStr (snd (r5_xname r))]).
      change (attr d kXNAME = PList [PStr (fst (r5_xname r)); PStr (snd (r5_xname r))]). apply A1. simpl; tauto. }
    eapply (closes_step o 2110 _ _ d2 [_; _] d2).
    { apply (emits_lines_block o Hann _ kNIV kXNAME 2%Z); try reflexivity. exact Niv. }
    { apply names_one_line. auto. }
    assert (P : forall items, has d items -> ~ In kDX (map fst items) -> ~ In kXNAME (map fst items) -> has d2 items).
    { intros items K1 K2 K3. unfold d2, mid2110. apply has_upd; auto. apply has_upd; auto. }
    apply (closes_step o 2110 _ _ d2 _ d2).
    { apply emits_vars; auto. apply P; auto; simpl; intuition discriminate. } { now apply var_one_line. }
    apply (closes_step o 2110 _ _ d2 _ d2).
    { apply emits_aux; auto. apply P; auto; unfold aux_items; destruct (r5_aux r); simpl; intuition discriminate. }
    { now apply aux_one_line. }
    rewrite <- (app_nil_r (comment_lines _)).
    apply (closes_step o 2110 _ _ d2 _ d2).
    { apply (emits_comments o Hann 2110 2). apply P; auto; simpl; intuition discriminate. }
    { now apply comments_one_line. }
    apply closes_end; auto. change (attr d kFFI = PInt 2110). apply A; simpl; tauto.
Qed.

Definition read2110 (n : Z) (r : r2110 num) : na num :=
  upd_comments (r5_common r) (upd_aux (map norm_var (r5_aux r)) (upd_vars (map norm_var (r5_vars r))
    (upd (upd (upd_common n 2110 (r5_common r) na_new)
      kDX (nums_pv [head_num (fst (r5_dx r)); head_num (snd (r5_dx r))]))
      kXNAME (strs_pv [fst (r5_xname r); snd (r5_xname r)])))).
Lemma eats2110 r : ok2110 g r ->
  eats (readHeader C2110 0) na_new (header o 2110 (body2110 r)) (read2110 (Z.of_nat (S (length (body2110 r)))) r) tt.
Proof.
  intros (Hc & Hv & Ha & _ & Hx1 & Hx2 & _). unfold header. set (n := Z.of_nat _). clearbody n.
  unfold body2110, read2110. cbn [readHeader]. unfold readHeader_2110.
  rewrite app_comm_cons.
  eapply (eats_seq _ _ _ (_ :: common_lines o _)); [eapply (eats_common dl); auto|].
  eapply (eats_bind _ _ _ [] _ 2%Z); [apply eats_get_int; reflexivity|].
  eapply (eats_seq _ _ _ [_]).
  { apply (eats_set_list _ (fun l => PList (rev l))).
    apply (eats_num_line dl Hd Hs o eq_refl [snd (r5_dx r); fst (r5_dx r)]); [discriminate|reflexivity]. }
  eapply (eats_seq _ _ _ [_; _]).
  { apply (eats_set_list _ (fun l => PList (rev l))). apply eats_names; [|reflexivity]. auto. }
  eapply (eats_seq _ _ _ (var_lines o _)); [eapply (eats_vars dl); auto|].
  eapply (eats_seq _ _ _ (aux_lines o _)); [eapply (eats_aux dl); auto|].
  apply eats_comments.
Qed.

(** ** Data *)
Lemma counts_at {X} (xs : list (mark num X)) a0 m : counts_ok g xs a0 -> (m < length xs)%nat ->
  num_trunc (g (val (at_ m a0))) = Some (Z.of_nat (length (nth m (map m_in xs) []))).
Proof.
  intros Hi. revert m. induction Hi as [|x n xs a0 E _ IH]; intros m Hm; [simpl in Hm; lia|].
  destruct m; simpl in *; [exact E|]. apply IH. lia.
Qed.
Lemma firstn_marks {X} (xs : list (mark num X)) (P : mark num X -> pyv) m x : nth_error xs m = Some x ->
  map P (firstn (S m) xs) = map P (firstn m xs) ++ [P x].
Proof. intros E. rewrite (firstn_S_nth xs m x E). now rewrite map_app. Qed.

Lemma vst3_O vs : vst3 0 vs = repeat (PList []) (length vs).
Proof. unfold vst3. induction vs as [|v vs IH]; cbn; [reflexivity|]. f_equal. exact IH. Qed.
Lemma vst3_all M vs : Forall (fun v => length v = M) vs -> vst3 M vs = map (fun v => PList (map nums_pv v)) vs.
Proof.
  intros Hv. unfold vst3. apply map_ext_in. intros v Hi. rewrite Forall_forall in Hv. rewrite <- (Hv v Hi).
  now rewrite firstn_all.
Qed.
Lemma inner_length {X} (xs : list (mark num X)) v : inner_ok xs v -> length v = length xs.
Proof. unfold inner_ok. induction 1; cbn [length]; congruence. Qed.

Lemma readData1_2110_ok h m rest (x : number) X V n0 as_ NX DX : attr h kNAUXV = PInt (Z.of_nat (length as_)) ->
  as_ <> [] -> Forall (fun c => m < length c)%nat as_ -> 
  num_trunc (g (val (at_ m (nth 0 as_ [])))) = Some (Z.of_nat n0) ->
  readData1_2110 h (nls [row o (x :: col m as_)] ++ rest) m (mkD X V (pre m (map (map dn) as_)) NX DX) =
  Ok (mkD (X ++ [PList [pv (dn x); PList []]]) V (pre (S m) (map (map dn) as_)) (NX ++ [PInt (Z.of_nat n0)]) DX, rest).
Proof.
  intros En Hne Ha Hc. unfold readData1_2110, h_int. rewrite En. cbn [as_int bindR].
  rewrite (items_row o Hd g Hf); [|discriminate|cbn [length]; unfold col; rewrite map_length; lia].
  cbn [bindR map]. unfold nth_res at 1. cbn [nth_error of_opt bindR skipn d_A].
  rewrite <- col_map by auto. rewrite <- (map_length (map dn) as_).
  rewrite append_each_ok by now apply lens_map. cbn [bindR].
  destruct as_ as [|a0 as_]; [congruence|]. cbn [map col nth] in Hc |- *. unfold nth_res at 1.
  cbn [col map nth_error of_opt bindR]. rewrite at_map by (now apply Forall_inv in Ha).
  unfold data_num at 1. cbn [pv int_of]. rewrite Hc. reflexivity.
Qed.

Definition lines2110 (r : r2110 num) : list str :=
  header o 2110 (body2110 r) ++ concat (map (fun m => [row o (at_ m (map m_x (r5_x r)) :: col m (r5_a r))] ++ map (row o) (inner m (nth m (map m_in (r5_x r)) []) (r5_v r))) (seq 0 (length (r5_x r)))).
Theorem rt2110_as r d nlh : ok2110 g r -> has d (items2110 r) -> attr d kNLHEAD = PInt nlh ->
  comes_back_as o C2110 d (items2110 (norm2110 g r)) (lines2110 r).
Proof.
  intros Hr Hh Hn. pose proof (fun k v => has_attr d _ k v Hh) as A.
  pose proof Hr as (Hc & Hv & Ha & Hane & Hx1 & Hx2 & Hl1 & Hl2 & Hl3 & Hcnt & Hinn).
  set (M := length (r5_x r)) in *. set (n := Z.of_nat (S (length (body2110 r)))).
  set (ins := map m_in (r5_x r)).
  assert (Hla : forall m, (m < M)%nat -> Forall (fun c => m < length c)%nat (r5_a r)) by (intros m; now apply lens_lt).
  assert (Hlv : forall m, (m < M)%nat -> Forall (fun v => m < length v /\ length (nth m v []) = length (nth m ins []))%nat (r5_v r)).
  { intros m Hm. eapply Forall_impl; [|exact Hinn]. intros v Hi. now apply inner_lens. }
  assert (Hae : r5_a r <> []) by (intros K; rewrite K in Hl1; now destruct (r5_aux r)).
  set (dr := read2110 n r). set (xs' := map (norm_mark g) (r5_x r)).
  assert (Nv : attr dr kNV = PInt (Z.of_nat (length (r5_v r)))).
  { apply (attr_len dr kNV (map norm_var (r5_vars r))); [unfold dr, read2110, upd_aux; now destruct (map norm_var (r5_aux r))|now rewrite map_length]. }
  assert (Na : attr dr kNAUXV = PInt (Z.of_nat (length (r5_a r)))).
  { apply (attr_len dr kNAUXV (map norm_var (r5_aux r))); [unfold dr, read2110, upd_aux; now destruct (map norm_var (r5_aux r))|now rewrite map_length]. }
  assert (ND : attr dr kDX = PList (map pv [head_num (fst (r5_dx r)); head_num (snd (r5_dx r))])).
  { unfold dr, read2110, upd_aux; now destruct (map norm_var (r5_aux r)). }
  apply (comes_back_intro o Hd C2110 d 2110 (body2110 r) (mid2110 r d) (mid2110 r d) dr _
    (fun m => [row o (at_ m (map m_x (r5_x r)) :: col m (r5_a r))] ++ map (row o) (inner m (nth m ins []) (r5_v r)))
    (fun m => mkD (map (mark_pv pv) (firstn m xs')) (vst3 m (map (map (map dn)) (r5_v r))) (pre m (map (map dn) (r5_a r)))
       (map (fun k => len_pv (m_in k)) (firstn m xs')) (map pv [head_num (fst (r5_dx r)); head_num (snd (r5_dx r))])) M).
  - intros f. eapply write2110; eauto.
  - match goal with |- forall f h, _ = (Ok tt, mkW (f ++ unlines ?L) h ?d1) => change (emitd (writeData o C2110) d1 L) end.
    set (d2 := mid2110 r d).
    assert (A3 : forall k, k <> kDX -> k <> kXNAME -> attr d2 k = attr d k).
    { intros k K1 K2. destruct k; try reflexivity; congruence. }
    clearbody d2.
    assert (A1 : forall k v, In (k, v) [(kX, PList (map (mark_pv pv) (r5_x r))); (kNX, PList (map (fun m => len_pv (m_in m)) (r5_x r)));
      (kA, PList (map nums_pv (r5_a r)));
      (kV, PList (map (fun v => PList (map nums_pv v)) (r5_v r))); (kNAUXV, PInt (Z.of_nat (length (r5_aux r)))); (kNV, PInt (Z.of_nat (length (r5_vars r))))] -> attr d2 k = v).
    { intros k v Hi. rewrite A3; [|intros ->; simpl in Hi; intuition discriminate|intros ->; simpl in Hi; intuition discriminate].
      apply A. unfold items2110. rewrite !in_app_iff. simpl in Hi |- *. tauto. }
    cbn [writeData]. unfold writeData_2110.
    eapply emitd_self; [apply A1; simpl; tauto|].
    eapply (emitd_lift (range_len _)); [reflexivity|]. rewrite map_length. fold M.
    apply emitd_for. intros m Hm. apply in_seq in Hm.
    destruct (nth_error (r5_x r) m) as [x|] eqn:Ex; [|apply nth_error_None in Ex; fold M in Ex; lia].
    apply (emitd_bind _ _ d2 [_] _).
    { apply emitd_x_aux; auto; try (apply A1; simpl; tauto); [| |apply Hla; lia].
      - unfold index2. rewrite (index_map (mark_pv pv) (r5_x r) m x Ex). cbn. do 2 f_equal.
        unfold at_. symmetry. apply nth_error_nth. now rewrite nth_error_map, Ex.
      - rewrite Hl1. apply A1. simpl. tauto. }
    apply emitd_inner; auto; try (rewrite ?Hl2; apply A1; simpl; tauto). fold M. lia.
  - now apply body2110_one_line.
  - reflexivity.
  - now apply eats2110.
  - unfold dr, read2110, upd_aux; now destruct (map norm_var (r5_aux r)).
  - cbn [setupArrays]. unfold setup_2110, h_int, h_list. rewrite Nv, Na, ND. cbn [as_int as_list bindR]. do 2 f_equal.
    + unfold empties. rewrite Nat2Z.id, vst3_O. now rewrite map_length.
    + now apply (pre_O_map g (r5_vars r)).
  - intros m Hm. split; [discriminate|]. constructor; [eapply row_solid; eauto; discriminate|].
    apply Forall_map. unfold inner. apply Forall_map, Forall_forall. intros p _. eapply row_solid; eauto. discriminate.
  - intros m rest Hm. do 2 eexists. cbn [readData1 readData2]. split.
    { rewrite nls_app, <- app_assoc. apply (readData1_2110_ok dr m _ _ _ _ (length (nth m ins []))); auto.
      now apply counts_at. }
    destruct (nth_error (r5_x r) m) as [x|] eqn:Ex; [|apply nth_error_None in Ex; fold M in Ex; lia].
    assert (Ei : nth m ins [] = m_in x) by (apply nth_error_nth; unfold ins; now rewrite nth_error_map, Ex).
    assert (Ex' : nth_error xs' m = Some (norm_mark g x)) by (unfold xs'; now rewrite nth_error_map, Ex).
    assert (Em : at_ m (map m_x (r5_x r)) = m_x x) by (apply nth_error_nth; now rewrite nth_error_map, Ex).
    rewrite Em, Ei. change (PInt (Z.of_nat (length (m_in x)))) with (@len_pv num _ (m_in x)).
    rewrite readData2_2110_ok; auto.
    + rewrite !(firstn_marks xs' _ m _ Ex').
      replace (len_pv (m_in (norm_mark g x))) with (@len_pv num _ (m_in x)); [reflexivity|].
      unfold len_pv. cbn [norm_mark m_in]. now rewrite map_length.
    + rewrite map_length. eapply length_firstn_nth; eauto.
    + rewrite map_length. eapply length_firstn_nth; eauto.
    + rewrite <- Ei. now apply Hlv.
  - cbn [store d_X d_V d_A d_NX]. unfold M in *. rewrite !full_cols by auto.
    rewrite !firstn_all2 by (unfold xs'; now rewrite map_length).
    rewrite vst3_all.
    2:{ apply Forall_map. eapply Forall_impl; [|exact Hinn]. intros v K. rewrite map_length. now apply inner_length. }
    intros k. unfold dr, read2110, items2110. cbn [r5_common r5_vars r5_aux norm2110 r5_dx r5_xname r5_x r5_a r5_v fst snd]. fold xs'.
    unfold upd_aux, aux_items. destruct (map norm_var (r5_aux r)); destruct k; reflexivity.
Qed.
Theorem rt2110 r d nlh : ok2110 g r -> has d (items2110 r) -> attr d kNLHEAD = PInt nlh ->
  comes_back o C2110 d (items2110 (norm2110 g r)).
Proof. intros. eapply comes_back_of, rt2110_as; eauto. Qed.
End RT3.
