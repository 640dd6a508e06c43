(** Round trip of FFI 1001, 1010 and 1020. *)
From Coq Require Import List NArith ZArith Bool Lia.
From Verif Require Import Py.Str Py.Res Py.Num Model.Dict Model.TextParser Model.CommonUtils
  Model.NAWrite Model.NARead Spec.TextSpec Spec.Records Spec.RoundTripSpec
  Proofs.StrLemmas Proofs.NumLemmas Proofs.TextLemmas Proofs.WriteFrame Proofs.RTText Proofs.RTHead Proofs.RTRead Proofs.RTData.
Import ListNotations.

Section RT1.
Context {num : Type} `{NumOps num}.
Variable o : opts num.
Hypothesis Hann : o_annot o = false.
Hypothesis Hd : delim_ok (o_delim o).
Hypothesis Hs : str_law.
Variable g : num -> num.
Hypothesis Hf : fmt_law (o_fmt o) g.
Local Notation dl := (o_delim o).
Local Notation number := (number num).

(** ** No line breaks *)
Lemma name_one_line s : name_ok s -> one_line s.
Proof. intros K. apply K. Qed.
Lemma names_one_line l : Forall name_ok l -> Forall one_line l.
Proof. apply Forall_impl. apply name_one_line. Qed.
Lemma date_one_line a : one_line (date_str a).
Proof.
  destruct a as [[x y] z]. unfold date_str. repeat (apply one_line_app; split); auto using dec_one_line;
  split; intros [K|[]]; discriminate.
Qed.
Lemma common_one_line c : common_ok c -> Forall one_line (common_lines o c).
Proof.
  intros (T1 & T2 & T3 & T4 & _). destruct Hd as (_ & _ & Ho). unfold common_lines.
  repeat constructor; try (apply name_one_line, T1); try (apply name_one_line, T2);
    try (apply name_one_line, T3); try (apply name_one_line, T4).
  all: match goal with |- ~ In ?c ?s => assert (K : one_line s) end;
    [repeat (apply one_line_app; split); auto using dec_one_line, date_one_line|apply K].
Qed.
Lemma var_one_line vs : vars_ok vs -> Forall one_line (var_lines o vs).
Proof.
  intros [_ Hv]. unfold var_lines. repeat apply Forall_cons; auto using dec_one_line, num_line_one_line.
  apply names_one_line, Forall_map, Hv.
Qed.
Lemma aux_one_line vs : auxs_ok vs -> Forall one_line (aux_lines o vs).
Proof.
  intros Hv. unfold aux_lines. apply Forall_cons; [apply dec_one_line|]. destruct vs as [|v vs]; [constructor|].
  repeat apply Forall_cons; auto using dec_one_line, num_line_one_line.
  - apply (Forall_inv Hv).
  - apply names_one_line. apply Forall_map. now inversion Hv.
Qed.
Lemma comments_one_line c : common_ok c -> Forall one_line (comment_lines c).
Proof.
  intros (_ & _ & _ & _ & H1 & H2). unfold comment_lines.
  apply Forall_cons; [apply dec_one_line|]. apply Forall_app. split.
  - eapply Forall_impl; [|exact H1]. intros s K. apply K.
  - apply Forall_cons; [apply dec_one_line|]. eapply Forall_impl; [|exact H2]. intros s K. apply K.
Qed.
Lemma header_one_line ffi body : Forall one_line body -> Forall one_line (header o ffi body).
Proof. intros Hb. unfold header. constructor; auto. now apply top_line_one_line. Qed.

(** ** The whole write *)
Lemma write_file c d ffi body rows d1 d2 h :
  (forall f, writeHeader o c (mkW f [] d) =
     (Ok tt, mkW (f ++ unlines (header o ffi body)) (unlines (header o ffi body)) d1)) ->
  (forall f h, writeData o c (mkW f h d1) = (Ok tt, mkW (f ++ unlines rows) h d2)) ->
  write_body o c false (mkW [] h d) =
    (Ok tt, mkW (unlines (header o ffi body ++ rows)) (unlines (header o ffi body)) d2).
Proof.
  intros H1 H2. unfold write_body, bindW. simpl w_file. simpl w_na. rewrite H1, H2. rewrite unlines_app. reflexivity.
Qed.
Lemma read_written c ffi body rows d d' :
  Forall one_line body -> Forall one_line rows -> getNAFileClass ffi = Ok c ->
  eats (readHeader c 0) na_new (header o ffi body) d tt ->
  readData d c (unlines (header o ffi body ++ rows)) = Ok d' ->
  read_file (unlines (header o ffi body ++ rows)) 0 = Ok (c, d').
Proof.
  intros H1 H2 H3 H4 H5. unfold read_file.
  rewrite (open_file (o_delim o) Hd o eq_refl c ffi body rows d) by auto. cbn [bindR snd fst]. now rewrite H5.
Qed.


Lemma count_unlines L : Forall one_line L -> count_chr c_nl (unlines L) = length L.
Proof.
  induction 1 as [|l L [Hl _] HL IH]; [reflexivity|]. rewrite unlines_cons. cbn [length].
  rewrite !count_chr_app, IH. replace (count_chr c_nl l) with 0%nat; [reflexivity|].
  symmetry. apply count_chr_mem, mem_chr_false, Hl.
Qed.

(** As [comes_back], with the lines of the file. *)
Definition comes_back_as (c : cls) (d : na num) (items : list (key * pyv num)) (L : list str) : Prop :=
  forall h, exists hdr d2,
    write_body o c false (mkW [] h d) = (Ok tt, mkW (unlines L) hdr d2) /\
    exists data d', unlines L = hdr ++ data /\ read_file (unlines L) 0 = Ok (c, d') /\
      is_dict d' (read_items (count_chr c_nl hdr) ++ items).
Lemma comes_back_of c d items L : comes_back_as c d items L -> comes_back o c d items.
Proof.
  intros K h. destruct (K h) as (hdr & d2 & E & data & d' & E1 & E2 & E3).
  exists (unlines L), hdr, d2. split; auto. exists data, d'. auto.
Qed.

(** Everything put together. *)
Lemma comes_back_intro c d ffi body d1 d2 dr items (block : nat -> list str) (S0 : nat -> dst) M :
  (forall f, writeHeader o c (mkW f [] d) =
     (Ok tt, mkW (f ++ unlines (header o ffi body)) (unlines (header o ffi body)) d1)) ->
  (forall f h, writeData o c (mkW f h d1) = (Ok tt, mkW (f ++ unlines (concat (map block (seq 0 M)))) h d2)) ->
  Forall one_line body -> getNAFileClass ffi = Ok c ->
  eats (readHeader c 0) na_new (header o ffi body) dr tt ->
  attr dr kNLHEAD = PInt (Z.of_nat (S (length body))) -> setupArrays dr c = Ok (S0 0%nat) ->
  (forall m, (m < M)%nat -> block m <> [] /\ Forall solid (block m)) ->
  (forall m rest, (m < M)%nat -> exists s1 ls1,
     readData1 dr c (nls (block m) ++ rest) m (S0 m) = Ok (s1, ls1) /\
     readData2 dr c ls1 m s1 = Ok (S0 (S m), rest)) ->
  is_dict (store dr c (S0 M)) (read_items (S (length body)) ++ items) ->
  comes_back_as c d items (header o ffi body ++ concat (map block (seq 0 M))).
Proof.
  intros H1 H2 H3 H4 H5 H6 H7 H8 H9 H10 h.
  do 2 eexists. split; [eapply write_file; eauto|].
  exists (unlines (concat (map block (seq 0 M)))), (store dr c (S0 M)).
  split; [apply unlines_app|]. split.
  - eapply read_written; eauto; [now apply rows_one_line|]. apply readData_blocks; auto.
    now apply header_one_line.
  - rewrite count_unlines by now apply header_one_line. exact H10.
Qed.

(** ** FFI 1001 *)
Definition body1001 (r : r1001 num) : list str :=
  common_lines o (r1_common r) ++ [s_of (r1_dx r)] ++ [r1_xname r] ++ var_lines o (r1_vars r) ++
  comment_lines (r1_common r).
Lemma write1001 r d nlh f : has d (items1001 r) -> ok1001 r -> attr d kNLHEAD = PInt nlh ->
  writeHeader o C1001 (mkW f [] d) =
  (Ok tt, mkW (f ++ unlines (header o 1001 (body1001 r))) (unlines (header o 1001 (body1001 r))) d).
Proof.
  intros Hh (Hc & Hv & Hx & _) Hn. pose proof (fun k v => has_attr d _ k v Hh) as A.
  unfold items1001 in Hh. apply has_app in Hh as [Hh1 Hh]. apply has_app in Hh as [Hh2 Hh].
  unfold body1001. cbn [writeHeader]. unfold writeHeader_1001.
  assert (Niv : attr d kNIV = PInt 1) by (apply A; simpl; tauto).
  eapply (closes_start o 1001).
  - apply (emits_common o Hann 1001 1); eauto.
  - now apply common_one_line.
  - apply (closes_step o 1001 _ _ d [_] d).
    { intros f' h. unfold bindW at 1, liftW. rewrite annot_plain by auto.
      unfold bindW at 1. rewrite (self_int_ok kNIV 1) by auto.
      unfold bindW at 1. rewrite (self_list_ok kDX [pv (r1_dx r)]) by (apply A; simpl; tauto).
      cbn [length Z.to_nat Pos.to_nat Pos.iter_op Nat.eqb mapR]. rewrite fmt_s_pv. cbn [bindR app concat].
      rewrite app_nil_r. unfold bindW, liftW, hwrite. simpl. now rewrite unlines_one. }
    { constructor; auto. apply token_one_line, s_of_token, Hs. }
    apply (closes_step o 1001 _ _ d [_] d).
    { intros f' h. unfold bindW at 1, liftW. rewrite annot_plain by auto.
      unfold bindW at 1. rewrite (self_int_ok kNIV 1) by auto.
      unfold bindW at 1. rewrite (self_list_ok kXNAME [PStr (r1_xname r)]) by (apply A; simpl; tauto).
      cbn [length Z.to_nat Pos.to_nat Pos.iter_op Nat.eqb mapR fmt_s bindR app concat map].
      rewrite app_nil_r. unfold bindW, liftW, hwrite. simpl. now rewrite unlines_one. }
    { constructor; auto. now apply name_one_line. }
    apply (closes_step o 1001 _ _ d _ d).
    { now apply emits_vars. } { now apply var_one_line. }
    rewrite <- (app_nil_r (comment_lines _)).
    apply (closes_step o 1001 _ _ d _ d).
    { eapply emits_comments; eauto. } { now apply comments_one_line. }
    apply closes_end; auto. apply A; simpl; tauto.
Qed.

Definition read1001 (n : Z) (r : r1001 num) : na num :=
  upd_comments (r1_common r) (upd_vars (map norm_var (r1_vars r))
    (upd (upd (upd_common n 1001 (r1_common r) na_new) kDX (nums_pv [head_num (r1_dx r)]))
      kXNAME (strs_pv [r1_xname r]))).
Lemma eats1001 r : ok1001 r ->
  eats (readHeader C1001 0) na_new (header o 1001 (body1001 r)) (read1001 (Z.of_nat (S (length (body1001 r)))) r) tt.
Proof.
  intros (Hc & Hv & Hx & _). unfold header. set (n := Z.of_nat _). clearbody n.
  unfold body1001, read1001. cbn [readHeader]. unfold readHeader_1001.
  rewrite app_comm_cons.
  eapply (eats_seq _ _ _ (_ :: common_lines o _)); [eapply (eats_common dl); auto|].
  eapply (eats_bind _ _ _ [] _ 1%Z); [apply eats_get_int; reflexivity|].
  eapply (eats_seq _ _ _ [_]).
  { apply (eats_set_list _ PList). apply (eats_num_line dl Hd Hs o eq_refl [r1_dx r]); [discriminate|reflexivity]. }
  eapply (eats_seq _ _ _ [_]).
  { apply (eats_set_list _ PList). apply eats_names; [|reflexivity]. constructor; auto. }
  eapply (eats_seq _ _ _ (var_lines o _)); [eapply (eats_vars dl); auto|].
  apply eats_comments.
Qed.

Definition lines1001 (r : r1001 num) : list str :=
  header o 1001 (body1001 r) ++ concat (map (fun m => [row o (at_ m (r1_x r) :: col m (r1_v r))]) (seq 0 (length (r1_x r)))).
Theorem rt1001_as r d nlh : ok1001 r -> has d (items1001 r) -> attr d kNLHEAD = PInt nlh ->
  comes_back_as C1001 d (items1001 (norm1001 g r)) (lines1001 r).
Proof.
  intros Hr Hh Hn. pose proof (fun k v => has_attr d _ k v Hh) as A.
  pose proof Hr as (Hc & Hv & Hx & Hl1 & Hl2).
  set (M := length (r1_x r)). set (n := Z.of_nat (S (length (body1001 r)))).
  set (vs := map (map (data_num g)) (r1_v r)). set (xs := map (data_num g) (r1_x r)).
  assert (Hlt : forall m, (m < M)%nat -> Forall (fun c => m < length c)%nat (r1_v r)) by (intros m; now apply lens_lt).
  apply (comes_back_intro C1001 d 1001 (body1001 r) d d (read1001 n r) _
    (fun m => [row o (at_ m (r1_x r) :: col m (r1_v r))])
    (fun m => mkD (map pv (firstn m xs)) (pre m vs) [] [] []) M).
  - intros f. eapply write1001; eauto.
  - match goal with |- forall f h, _ = (Ok tt, mkW (f ++ unlines ?L) h d) => change (emitd (writeData o C1001) d L) end.
    cbn [writeData]. unfold writeData_1001.
    eapply emitd_self; [apply A; simpl; tauto|].
    eapply (emitd_lift (range_len _)); [reflexivity|]. rewrite map_length. fold M.
    apply emitd_for. intros m Hm. apply in_seq in Hm.
    eapply emitd_lift.
    { apply (cat_items_ok o [m] _ (fun m => at_ m (r1_x r))). intros x [<-|[]]. apply index_nums. fold M. lia. }
    eapply emitd_self_int; [apply A; simpl; tauto|]. eapply emitd_self; [apply A; simpl; tauto|].
    eapply emitd_lift; [rewrite <- Hl1; apply cat_cols, Hlt; lia|].
    rewrite <- cells_app. now apply emitd_line.
  - unfold body1001. rewrite !Forall_app. repeat match goal with |- _ /\ _ => split end; auto using common_one_line, var_one_line, comments_one_line.
    + constructor; auto. apply token_one_line, s_of_token, Hs.
    + constructor; auto. now apply name_one_line.
  - reflexivity.
  - now apply eats1001.
  - reflexivity.
  - cbn [setupArrays]. unfold setup_1001, h_int. cbn. f_equal. f_equal. unfold empties. rewrite Nat2Z.id, pre_O.
    f_equal. unfold vs. rewrite !map_length. auto.
  - intros m Hm. split; [discriminate|]. constructor; auto. eapply row_solid; eauto. discriminate.
  - intros m rest Hm. do 2 eexists. split; [|reflexivity]. cbn [readData1]. unfold readData1_1001, h_int.
    change (attr (read1001 n r) kNV) with (@len_pv num _ (map norm_var (r1_vars r))).
    unfold len_pv. rewrite map_length, <- Hl1. cbn [as_int bindR].
    rewrite (items_row o Hd g Hf); [|discriminate|cbn [length]; unfold col; rewrite map_length; lia].
    cbn [bindR map]. unfold nth_res at 1. cbn [nth_error of_opt bindR skipn d_V].
    rewrite <- col_map by now apply Hlt.
    replace (length (r1_v r)) with (length vs) by (unfold vs; now rewrite map_length).
    fold vs. rewrite append_each_ok by (apply lens_map; now apply Hlt).
    cbn [bindR]. unfold set_V, set_X. cbn [d_X d_A d_NX d_DX]. do 3 f_equal.
    unfold xs. rewrite firstn_at by (rewrite map_length; fold M; lia). rewrite map_app, at_map by (fold M; lia).
    reflexivity.
  - cbn [store d_X d_V]. rewrite pre_all.
    2:{ unfold vs. apply Forall_map. eapply Forall_impl; [|exact Hl2]. intros c. cbv beta. now rewrite map_length. }
    replace (firstn M xs) with xs by (unfold M, xs; symmetry; rewrite <- (map_length (data_num g)); apply firstn_all).
    intros k. destruct k; reflexivity.
Qed.
Theorem rt1001 r d nlh : ok1001 r -> has d (items1001 r) -> attr d kNLHEAD = PInt nlh ->
  comes_back o C1001 d (items1001 (norm1001 g r)).
Proof. intros. eapply comes_back_of, rt1001_as; eauto. Qed.

(** ** FFI 1010 *)
(** The lines that FFI 1010 and 1020 share: DX with a trailing blank. *)
Definition dx_line (n : number) : str := s_of n ++ lit " ".
Lemma dx_line_one_line n : one_line (dx_line n).
Proof.
  apply one_line_app. split; [apply token_one_line, s_of_token, Hs|]. split; intros [K|[]]; discriminate.
Qed.
Lemma emits_dx n d : attr d kNIV = PInt 1 -> attr d kDX = nums_pv [n] ->
  emits (bindW (self_int kNIV) (fun niv => bindW (self_list kDX) (fun l =>
    bindW (liftW (fmt_dx_1010 niv l)) (fun s => hwrap o (lit "DX") s)))) d [dx_line n] d.
Proof.
  intros E1 E2 f h. unfold bindW at 1. rewrite (self_int_ok kNIV 1) by auto.
  unfold bindW at 1. rewrite (self_list_ok kDX [pv n]) by auto. unfold fmt_dx_1010.
  cbn [length Z.to_nat Pos.to_nat Pos.iter_op Nat.eqb mapR]. rewrite fmt_s_pv. cbn [bindR app concat map].
  rewrite app_nil_r. unfold bindW at 1, liftW. apply hwrap_emits; auto.
Qed.
Lemma eats_dx n d : eats (items_line 1 TFloat) d [dx_line n] d (map pv [head_num n]).
Proof.
  apply (eats_items_line _ _ _ [s_of n]); try discriminate; try reflexivity.
  - unfold dx_line. rewrite <- app_assoc. apply (toks_join (lit " ") [s_of n]).
    + split; [discriminate|]. split; [now apply blank_all_sp|]. split; intros [K|[]]; discriminate.
    + repeat constructor; apply s_of_token, Hs.
    + now apply blank_all_sp.
  - cbn [mapR]. now rewrite s_of_conv.
Qed.

Definition body1010 (r : r1010 num) : list str :=
  common_lines o (r2_common r) ++ [dx_line (r2_dx r)] ++ [r2_xname r] ++ var_lines o (r2_vars r) ++
  aux_lines o (r2_aux r) ++ comment_lines (r2_common r).
Lemma body1010_one_line r : ok1010 r -> Forall one_line (body1010 r).
Proof.
  intros (Hc & Hv & Ha & Hx & _).
  unfold body1010. rewrite !Forall_app. repeat match goal with |- _ /\ _ => split end;
    auto using common_one_line, var_one_line, aux_one_line, comments_one_line.
  - constructor; auto. apply dx_line_one_line.
  - constructor; auto. now apply name_one_line.
Qed.
Lemma write1010 r d nlh f : has d (items1010 r) -> ok1010 r -> attr d kNLHEAD = PInt nlh ->
  writeHeader o C1010 (mkW f [] d) =
  (Ok tt, mkW (f ++ unlines (header o 1010 (body1010 r))) (unlines (header o 1010 (body1010 r))) d).
Proof.
  intros Hh (Hc & Hv & Ha & Hx & _) Hn. pose proof (fun k v => has_attr d _ k v Hh) as A.
  unfold items1010 in Hh. apply has_app in Hh as [Hh1 Hh]. apply has_app in Hh as [Hh2 Hh].
  apply has_app in Hh as [Hh3 Hh].
  assert (A1 : forall k v, In (k, v) [(kDX, nums_pv [r2_dx r]); (kXNAME, strs_pv [r2_xname r])] -> attr d k = v).
  { intros k v Hi. apply (has_attr d _ k v Hh). simpl in Hi |- *. tauto. }
  unfold body1010. cbn [writeHeader]. unfold writeHeader_1010.
  assert (Niv : attr d kNIV = PInt 1) by (apply A; simpl; tauto).
  eapply (closes_start o 1010).
  - apply (emits_common o Hann 1010 1); eauto.
  - now apply common_one_line.
  - apply (closes_step o 1010 _ _ d [_] d).
    { apply emits_dx; auto. apply A1; simpl; tauto. }
    { constructor; auto. apply dx_line_one_line. }
    apply (closes_step o 1010 _ _ d [_] d).
    { apply (emits_lines_block o Hann _ _ _ 1 [r2_xname r]); auto. apply A1; simpl; tauto. }
    { constructor; auto. now apply name_one_line. }
    apply (closes_step o 1010 _ _ d _ d).
    { now apply emits_vars. } { now apply var_one_line. }
    apply (closes_step o 1010 _ _ d _ d).
    { now apply emits_aux. } { now apply aux_one_line. }
    rewrite <- (app_nil_r (comment_lines _)).
    apply (closes_step o 1010 _ _ d _ d).
    { eapply emits_comments; eauto. } { now apply comments_one_line. }
    apply closes_end; auto. apply A; simpl; tauto.
Qed.

Definition read1010 (n : Z) (r : r1010 num) : na num :=
  upd_comments (r2_common r) (upd_aux (map norm_var (r2_aux r)) (upd_vars (map norm_var (r2_vars r))
    (upd (upd (upd_common n 1010 (r2_common r) na_new) kDX (nums_pv [head_num (r2_dx r)]))
      kXNAME (strs_pv [r2_xname r])))).
Lemma eats1010 r : ok1010 r ->
  eats (readHeader C1010 0) na_new (header o 1010 (body1010 r)) (read1010 (Z.of_nat (S (length (body1010 r)))) r) tt.
Proof.
  intros (Hc & Hv & Ha & Hx & _). unfold header. set (n := Z.of_nat _). clearbody n.
  unfold body1010, read1010. cbn [readHeader]. unfold readHeader_1010.
  rewrite app_comm_cons.
  eapply (eats_seq _ _ _ (_ :: common_lines o _)); [eapply (eats_common dl); auto|].
  eapply (eats_bind _ _ _ [] _ 1%Z); [apply eats_get_int; reflexivity|].
  eapply (eats_seq _ _ _ [_]).
  { apply (eats_set_list _ PList). apply eats_dx. }
  eapply (eats_seq _ _ _ [_]).
  { apply (eats_set_list _ PList). apply eats_names; [|reflexivity]. constructor; auto. }
  eapply (eats_seq _ _ _ (var_lines o _)); [eapply (eats_vars dl); auto|].
  eapply (eats_seq _ _ _ (aux_lines o _)); [eapply (eats_aux dl); auto|].
  apply eats_comments.
Qed.

(** Reading a line with the mark and the auxiliary values (FFI 1010, 1020). *)
Definition marks (m : nat) (xs : list number) : list (pyv num) := map pv (firstn m xs).
Lemma marks_S m xs : (m < length xs)%nat -> marks (S m) xs = marks m xs ++ [pv (at_ m xs)].
Proof. intros Hm. unfold marks. rewrite firstn_at by auto. now rewrite map_app. Qed.
Lemma marks_all m xs : length xs = m -> marks m xs = map pv xs.
Proof. intros <-. unfold marks. now rewrite firstn_all. Qed.
Lemma readData1_1010_ok h m rest xs as_ V : attr h kNAUXV = PInt (Z.of_nat (length as_)) ->
  (m < length xs)%nat -> Forall (fun c => m < length c)%nat as_ ->
  readData1_1010 h (nls [row o (at_ m xs :: col m as_)] ++ rest) m
    (mkD (marks m (map (data_num g) xs)) V (pre m (map (map (data_num g)) as_)) [] []) =
  Ok (mkD (marks (S m) (map (data_num g) xs)) V (pre (S m) (map (map (data_num g)) as_)) [] [], rest).
Proof.
  intros En Hm Ha. unfold readData1_1010, h_int. rewrite En. cbn [as_int bindR].
  rewrite (items_row o Hd g Hf); [|discriminate|cbn [length]; unfold col; rewrite map_length; lia].
  cbn [bindR map]. unfold nth_res at 1. cbn [nth_error of_opt bindR skipn d_A].
  rewrite <- col_map by auto. rewrite <- (map_length (map (data_num g)) as_).
  rewrite append_each_ok by now apply lens_map.
  cbn [bindR]. unfold set_A, set_X. cbn [d_X d_V d_A d_NX d_DX].
  rewrite marks_S by now rewrite map_length. now rewrite at_map.
Qed.
Lemma attr_len (h : na num) k {A B} (l : list A) (l' : list B) : attr h k = len_pv l -> length l = length l' ->
  attr h k = PInt (Z.of_nat (length l')).
Proof. intros -> E. unfold len_pv. now rewrite E. Qed.
Lemma full_cols n cs : Forall (fun c : list number => length c = n) cs ->
  pre n (map (map (data_num g)) cs) = map nums_pv (map (map (data_num g)) cs).
Proof.
  intros Hc. apply pre_all, Forall_map. eapply Forall_impl; [|exact Hc]. intros c. cbv beta. now rewrite map_length.
Qed.
Lemma pre_O_map {A} (vs : list A) (cs : list (list number)) z :
  z = Z.of_nat (length cs) -> empties z = pre 0 (map (map (data_num g)) cs).
Proof. intros ->. unfold empties. now rewrite Nat2Z.id, pre_O, map_length. Qed.

Definition lines1010 (r : r1010 num) : list str :=
  header o 1010 (body1010 r) ++ concat (map (fun m => [row o (at_ m (r2_x r) :: col m (r2_a r)); row o (col m (r2_v r))]) (seq 0 (length (r2_x r)))).
Theorem rt1010_as r d nlh : ok1010 r -> has d (items1010 r) -> attr d kNLHEAD = PInt nlh ->
  comes_back_as C1010 d (items1010 (norm1010 g r)) (lines1010 r).
Proof.
  intros Hr Hh Hn. pose proof (fun k v => has_attr d _ k v Hh) as A.
  pose proof Hr as (Hc & Hv & Ha & Hx & Hl1 & Hl2 & Hl3 & Hl4).
  assert (A1 : forall k v, In (k, v) [(kX, nums_pv (r2_x r)); (kA, PList (map nums_pv (r2_a r))); (kV, PList (map nums_pv (r2_v r)))] -> attr d k = v).
  { intros k v Hi. apply A. unfold items1010. rewrite !in_app_iff. simpl in Hi |- *. tauto. }
  set (M := length (r2_x r)). set (n := Z.of_nat (S (length (body1010 r)))).
  assert (Hlt : forall m, (m < M)%nat -> Forall (fun c => m < length c)%nat (r2_v r)) by (intros m; now apply lens_lt).
  assert (Hla : forall m, (m < M)%nat -> Forall (fun c => m < length c)%nat (r2_a r)) by (intros m; now apply lens_lt).
  assert (Hne : forall m, col m (r2_v r) <> []).
  { intros m K. unfold col in K. apply map_eq_nil in K. rewrite K in Hl2. destruct Hv as [Hv _]. now destruct (r2_vars r). }
  set (dr := read1010 n r).
  assert (Nv : attr dr kNV = PInt (Z.of_nat (length (r2_v r)))).
  { apply (attr_len dr kNV (map norm_var (r2_vars r))); [unfold dr, read1010, upd_aux; now destruct (map norm_var (r2_aux r))|now rewrite map_length]. }
  assert (Na : attr dr kNAUXV = PInt (Z.of_nat (length (r2_a r)))).
  { apply (attr_len dr kNAUXV (map norm_var (r2_aux r))); [unfold dr, read1010, upd_aux; now destruct (map norm_var (r2_aux r))|now rewrite map_length]. }
  apply (comes_back_intro C1010 d 1010 (body1010 r) d d dr _
    (fun m => [row o (at_ m (r2_x r) :: col m (r2_a r)); row o (col m (r2_v r))])
    (fun m => mkD (marks m (map (data_num g) (r2_x r))) (pre m (map (map (data_num g)) (r2_v r))) (pre m (map (map (data_num g)) (r2_a r))) [] []) M).
  - intros f. eapply write1010; eauto.
  - match goal with |- forall f h, _ = (Ok tt, mkW (f ++ unlines ?L) h d) => change (emitd (writeData o C1010) d L) end.
    cbn [writeData]. unfold writeData_1010.
    eapply emitd_self; [apply A1; simpl; tauto|].
    eapply (emitd_lift (range_len _)); [reflexivity|]. rewrite map_length. fold M.
    apply emitd_for. intros m Hm. apply in_seq in Hm.
    apply (emitd_bind _ _ d [_] [_]).
    { apply emitd_x_aux; auto; try (apply A1; simpl; tauto); [apply index_nums; fold M; lia| |apply Hla; lia].
      rewrite Hl1. apply A. unfold items1010. rewrite !in_app_iff. simpl. tauto. }
    eapply emitd_self_int; [apply A; simpl; tauto|]. eapply emitd_self; [apply A1; simpl; tauto|].
    eapply emitd_lift; [rewrite <- Hl2; apply cat_cols, Hlt; lia|].
    now apply emitd_line.
  - now apply body1010_one_line.
  - reflexivity.
  - now apply eats1010.
  - unfold dr, read1010, upd_aux; now destruct (map norm_var (r2_aux r)).
  - cbn [setupArrays]. unfold setup_1010, h_int. rewrite Nv, Na. cbn [as_int bindR]. do 2 f_equal;
    now apply (pre_O_map (r2_vars r)).
  - intros m Hm. split; [discriminate|]. constructor; [eapply row_solid; eauto; discriminate|].
    constructor; auto. eapply row_solid; eauto.
  - intros m rest Hm. do 2 eexists. cbn [readData1 readData2]. split.
    { change (nls [row o (at_ m (r2_x r) :: col m (r2_a r)); row o (col m (r2_v r))] ++ rest)
        with (nls [row o (at_ m (r2_x r) :: col m (r2_a r))] ++ (nls [row o (col m (r2_v r))] ++ rest)).
      apply readData1_1010_ok; auto. }
    unfold readData2_1010, h_int. rewrite Nv. cbn [as_int bindR].
    rewrite (items_row o Hd g Hf); [|auto|unfold col; now rewrite map_length].
    cbn [bindR d_V]. rewrite <- col_map by now apply Hlt.
    rewrite <- (map_length (map (data_num g)) (r2_v r)).
    rewrite append_each_ok by (apply lens_map; now apply Hlt). reflexivity.
  - cbn [store d_X d_V d_A]. unfold M. rewrite !full_cols by auto. rewrite marks_all by apply map_length.
    intros k. unfold dr, read1010, items1010. cbn [r2_common r2_vars r2_aux norm1010 r2_dx r2_xname r2_x r2_a r2_v].
    unfold upd_aux, aux_items. destruct (map norm_var (r2_aux r)); destruct k; reflexivity.
Qed.
Theorem rt1010 r d nlh : ok1010 r -> has d (items1010 r) -> attr d kNLHEAD = PInt nlh ->
  comes_back o C1010 d (items1010 (norm1010 g r)).
Proof. intros. eapply comes_back_of, rt1010_as; eauto. Qed.

(** ** FFI 1020 *)
Definition body1020 (r : r1020 num) : list str :=
  common_lines o (r3_common r) ++ [dx_line (r3_dx r)] ++ [dec_of_Z (Z.of_nat (r3_nvpm r))] ++ [r3_xname r] ++
  var_lines o (r3_vars r) ++ aux_lines o (r3_aux r) ++ comment_lines (r3_common r).
Lemma body1020_one_line r : ok1020 r -> Forall one_line (body1020 r).
Proof.
  intros (Hc & Hv & Ha & Hx & _).
  unfold body1020. rewrite !Forall_app. repeat match goal with |- _ /\ _ => split end;
    auto using common_one_line, var_one_line, aux_one_line, comments_one_line.
  - constructor; auto. apply dx_line_one_line.
  - constructor; auto. apply dec_one_line.
  - constructor; auto. now apply name_one_line.
Qed.
Lemma write1020 r d nlh f : has d (items1020 r) -> ok1020 r -> attr d kNLHEAD = PInt nlh ->
  writeHeader o C1020 (mkW f [] d) =
  (Ok tt, mkW (f ++ unlines (header o 1020 (body1020 r))) (unlines (header o 1020 (body1020 r))) d).
Proof.
  intros Hh (Hc & Hv & Ha & Hx & _) Hn. pose proof (fun k v => has_attr d _ k v Hh) as A.
  unfold items1020 in Hh. apply has_app in Hh as [Hh1 Hh]. apply has_app in Hh as [Hh2 Hh].
  apply has_app in Hh as [Hh3 Hh].
  assert (A1 : forall k v, In (k, v) [(kDX, nums_pv [r3_dx r]); (kNVPM, PInt (Z.of_nat (r3_nvpm r))); (kXNAME, strs_pv [r3_xname r])] -> attr d k = v).
  { intros k v Hi. apply (has_attr d _ k v Hh). simpl in Hi |- *. tauto. }
  unfold body1020. cbn [writeHeader]. unfold writeHeader_1020.
  assert (Niv : attr d kNIV = PInt 1) by (apply A; simpl; tauto).
  eapply (closes_start o 1020).
  - apply (emits_common o Hann 1020 1); eauto.
  - now apply common_one_line.
  - apply (closes_step o 1020 _ _ d [_] d).
    { apply emits_dx; auto. apply A1; simpl; tauto. }
    { constructor; auto. apply dx_line_one_line. }
    apply (closes_step o 1020 _ _ d [_] d).
    { intros f' h'. unfold bindW at 1, self. cbn [w_na]. rewrite (A1 kNVPM (PInt (Z.of_nat (r3_nvpm r)))) by (simpl; tauto).
      unfold bindW at 1, liftW. cbn [fmt_s]. now apply hwrap_emits. }
    { constructor; auto. apply dec_one_line. }
    apply (closes_step o 1020 _ _ d [_] d).
    { intros f' h'. unfold bindW at 1. rewrite (self_int_ok kNIV 1) by auto.
      unfold bindW at 1. rewrite (self_list_ok kXNAME [PStr (r3_xname r)]) by (apply A1; simpl; tauto).
      unfold bindW at 1, liftW. rewrite (fmt_lines_strs (num:=num) [r3_xname r] : fmt_lines 1 [PStr _] = _).
      now apply (hwrap_unlines_emits o Hann (lit "XNAME") [r3_xname r]). }
    { constructor; auto. now apply name_one_line. }
    apply (closes_step o 1020 _ _ d _ d).
    { now apply emits_vars. } { now apply var_one_line. }
    apply (closes_step o 1020 _ _ d _ d).
    { now apply emits_aux. } { now apply aux_one_line. }
    rewrite <- (app_nil_r (comment_lines _)).
    apply (closes_step o 1020 _ _ d _ d).
    { eapply emits_comments; eauto. } { now apply comments_one_line. }
    apply closes_end; auto. apply A; simpl; tauto.
Qed.

Definition read1020 (n : Z) (r : r1020 num) : na num :=
  upd_comments (r3_common r) (upd_aux (map norm_var (r3_aux r)) (upd_vars (map norm_var (r3_vars r))
    (upd (upd (upd (upd_common n 1020 (r3_common r) na_new) kDX (nums_pv [head_num (r3_dx r)]))
      kNVPM (PInt (Z.of_nat (r3_nvpm r)))) kXNAME (strs_pv [r3_xname r])))).
Lemma eats1020 r : ok1020 r ->
  eats (readHeader C1020 0) na_new (header o 1020 (body1020 r)) (read1020 (Z.of_nat (S (length (body1020 r)))) r) tt.
Proof.
  intros (Hc & Hv & Ha & Hx & _). unfold header. set (n := Z.of_nat _). clearbody n.
  unfold body1020, read1020. cbn [readHeader]. unfold readHeader_1020.
  rewrite app_comm_cons.
  eapply (eats_seq _ _ _ (_ :: common_lines o _)); [eapply (eats_common dl); auto|].
  eapply (eats_bind _ _ _ [] _ 1%Z); [apply eats_get_int; reflexivity|].
  eapply (eats_seq _ _ _ [_]).
  { apply (eats_set_list _ PList). apply eats_dx. }
  eapply (eats_seq _ _ _ [_]); [apply eats_int_set|].
  eapply (eats_seq _ _ _ [_]).
  { apply (eats_set_list _ PList). apply eats_names; [|reflexivity]. constructor; auto. }
  eapply (eats_seq _ _ _ (var_lines o _)); [eapply (eats_vars dl); auto|].
  eapply (eats_seq _ _ _ (aux_lines o _)); [eapply (eats_aux dl); auto|].
  apply eats_comments.
Qed.

(** The values of mark [m]. *)
Definition chunk (p m : nat) (c : list number) : list number := firstn p (skipn (m * p) c).
Lemma chunk_at p m c i : (i < p)%nat -> (m * p + i < length c)%nat -> nth_error (chunk p m c) i = Some (at_ (m * p + i) c).
Proof.
  intros Hi Hl. unfold chunk, at_.
  rewrite <- (nth_error_nth' c (NI 0) Hl).
  rewrite <- (firstn_skipn (m * p) c) at 2.
  rewrite nth_error_app2 by (rewrite firstn_length; lia).
  rewrite firstn_length, Nat.min_l by lia. replace (m * p + i - m * p)%nat with i by lia.
  set (l := skipn (m * p) c). clearbody l. clear - Hi. revert p l Hi. induction i as [|i IH]; intros [|p] [|x l] Hi; simpl; auto; try lia.
  apply IH. lia.
Qed.
Lemma chunk_length p m c : ((m + 1) * p <= length c)%nat -> length (chunk p m c) = p.
Proof. intros Hl. unfold chunk. rewrite firstn_length, skipn_length. lia. Qed.
Lemma chunk_seq p m c : ((m + 1) * p <= length c)%nat ->
  map (fun i => at_ (m * p + i) c) (seq 0 p) = chunk p m c.
Proof.
  intros Hl. apply (nth_ext _ _ (NI 0) (NI 0)).
  - now rewrite map_length, seq_length, chunk_length.
  - rewrite map_length, seq_length. intros i Hi.
    rewrite (nth_map_lt _ (seq 0 p) i 0%nat) by now rewrite seq_length. rewrite seq_nth by auto. cbn [plus].
    symmetry. apply nth_error_nth, chunk_at; auto. nia.
Qed.
Lemma firstn_chunk p m c : ((m + 1) * p <= length c)%nat ->
  firstn (S m * p) c = firstn (m * p) c ++ chunk p m c.
Proof.
  intros Hl. unfold chunk. replace (S m * p)%nat with (m * p + p)%nat by lia.
  rewrite <- (firstn_skipn (m * p) c) at 1. rewrite firstn_app.
  rewrite firstn_length, Nat.min_l by lia. f_equal.
  - apply firstn_all2. rewrite firstn_length. lia.
  - f_equal. lia.
Qed.
Lemma chunk_map p m c : chunk p m (map (data_num g) c) = map (data_num g) (chunk p m c).
Proof. unfold chunk. now rewrite skipn_map, firstn_map. Qed.
Lemma at_concat p (ls : list (list number)) n i x : Forall (fun l => length l = p) ls ->
  (i < p)%nat -> nth_error (nth n ls []) i = Some x -> nth_error (concat ls) (n * p + i) = Some x.
Proof.
  intros Hl Hi. revert n. induction Hl as [|l ls Hp Hl IH]; intros n E.
  - destruct n, i; discriminate.
  - cbn [concat]. destruct n as [|n]; simpl in E |- *.
    + rewrite nth_error_app1; auto. lia.
    + rewrite nth_error_app2 by lia. replace (p + n * p + i - length l)%nat with (n * p + i)%nat by lia. now apply IH.
Qed.

(** Reading [p] values of every column. *)
Lemma forR_append p (body : nat -> list (pyv num) -> Res (list (pyv num))) a c b (add : list number) :
  length add = p ->
  (forall i a' x b', (i < p)%nat -> length a' = length a -> body i (a' ++ x :: b') =
     bindR (app_item (pv (at_ i add)) x) (fun y => Ok (a' ++ y :: b'))) ->
  forR (seq 0 p) body (a ++ nums_pv c :: b) = Ok (a ++ nums_pv (c ++ add) :: b).
Proof.
  intros Hl Hb.
  pose proof (forR_inv body (fun i => a ++ nums_pv (c ++ firstn i add) :: b) p) as K. cbv beta in K.
  rewrite firstn_O, app_nil_r in K. rewrite K.
  - now rewrite <- Hl, firstn_all.
  - intros i Hi. rewrite Hb by auto. unfold nums_pv. cbn [app_item bindR].
    rewrite firstn_at by lia. rewrite (app_assoc c), (map_app pv (c ++ _)). reflexivity.
Qed.

Definition lines1020 (r : r1020 num) : list str :=
  header o 1020 (body1020 r) ++ concat (map (fun m => [row o (at_ m (r3_x r) :: col m (r3_a r))] ++ map (row o) (map (chunk (r3_nvpm r) m) (r3_v r))) (seq 0 (length (r3_x r)))).
Theorem rt1020_as r d nlh : ok1020 r -> has d (items1020 r) -> attr d kNLHEAD = PInt nlh ->
  comes_back_as C1020 d (items1020 (norm1020 g r)) (lines1020 r).
Proof.
  intros Hr Hh Hn. pose proof (fun k v => has_attr d _ k v Hh) as A.
  pose proof Hr as (Hc & Hv & Ha & Hx & Hp & Hl1 & Hl2 & Hl3 & Hl4).
  assert (A1 : forall k v, In (k, v) [(kNVPM, PInt (Z.of_nat (r3_nvpm r))); (kX, nums_pv (r3_x r)); (kA, PList (map nums_pv (r3_a r))); (kV, PList (map nums_pv (r3_v r)))] -> attr d k = v).
  { intros k v Hi. apply A. unfold items1020. rewrite !in_app_iff. simpl in Hi |- *. tauto. }
  set (M := length (r3_x r)) in *. set (p := r3_nvpm r) in *. set (n := Z.of_nat (S (length (body1020 r)))).
  assert (Hlt : forall m, (m < M)%nat -> Forall (fun c => (m + 1) * p <= length c)%nat (r3_v r)).
  { intros m Hm. eapply Forall_impl; [|exact Hl4]. intros c ->. nia. }
  assert (Hla : forall m, (m < M)%nat -> Forall (fun c => m < length c)%nat (r3_a r)) by (intros m; now apply lens_lt).
  set (dr := read1020 n r).
  assert (Nv : attr dr kNV = PInt (Z.of_nat (length (r3_v r)))).
  { apply (attr_len dr kNV (map norm_var (r3_vars r))); [unfold dr, read1020, upd_aux; now destruct (map norm_var (r3_aux r))|now rewrite map_length]. }
  assert (Na : attr dr kNAUXV = PInt (Z.of_nat (length (r3_a r)))).
  { apply (attr_len dr kNAUXV (map norm_var (r3_aux r))); [unfold dr, read1020, upd_aux; now destruct (map norm_var (r3_aux r))|now rewrite map_length]. }
  assert (Np : attr dr kNVPM = PInt (Z.of_nat p)).
  { unfold dr, read1020, upd_aux; now destruct (map norm_var (r3_aux r)). }
  set (vs := map (map (data_num g)) (r3_v r)).
  apply (comes_back_intro C1020 d 1020 (body1020 r) d d dr _
    (fun m => [row o (at_ m (r3_x r) :: col m (r3_a r))] ++ map (row o) (map (chunk p m) (r3_v r)))
    (fun m => mkD (marks m (map (data_num g) (r3_x r))) (pre (m * p) vs)
       (pre m (map (map (data_num g)) (r3_a r))) [] []) M).
  - intros f. eapply write1020; eauto.
  - match goal with |- forall f h, _ = (Ok tt, mkW (f ++ unlines ?L) h d) => change (emitd (writeData o C1020) d L) end.
    cbn [writeData]. unfold writeData_1020.
    eapply emitd_self; [apply A1; simpl; tauto|].
    eapply (emitd_lift (range_len _)); [reflexivity|]. rewrite map_length. fold M.
    apply emitd_for. intros m Hm. apply in_seq in Hm.
    apply (emitd_bind _ _ d [_] _).
    { apply emitd_x_aux; auto; try (apply A1; simpl; tauto); [apply index_nums; fold M; lia| |apply Hla; lia].
      rewrite Hl1. apply A. unfold items1020. rewrite !in_app_iff. simpl. tauto. }
    eapply emitd_self_int; [apply A; simpl; tauto|].
    replace (map (row o) (map (chunk p m) (r3_v r)))
      with (concat (map (fun n => [row o (chunk p m (nth n (r3_v r) []))]) (range (Z.of_nat (length (r3_vars r)))))).
    2:{ rewrite <- Hl2. unfold range. rewrite Nat2Z.id.
        set (l := r3_v r). clearbody l. clear. induction l as [|c l IH]; simpl; [reflexivity|]. f_equal.
        rewrite <- seq_shift, map_map. exact IH. }
    apply emitd_for. intros k Hk. unfold range in Hk. rewrite Nat2Z.id, <- Hl2 in Hk. apply in_seq in Hk.
    eapply emitd_self_int; [apply A1; simpl; tauto|]. eapply emitd_self; [apply A1; simpl; tauto|].
    assert (Hck : ((m + 1) * p <= length (nth k (r3_v r) []))%nat).
    { pose proof (Hlt m ltac:(lia)) as K. rewrite Forall_forall in K. apply K, nth_In. lia. }
    eapply emitd_lift.
    { apply (cat_items_ok o (range (Z.of_nat p)) _ (fun i => at_ (m * p + i) (nth k (r3_v r) []))).
      unfold range. rewrite Nat2Z.id. intros i Hi. apply in_seq in Hi. unfold index2.
      rewrite (index_map nums_pv (r3_v r) k (nth k (r3_v r) [])) by (apply nth_error_nth'; lia).
      cbn [bindR]. apply index_nums. nia. }
    unfold range. rewrite Nat2Z.id, chunk_seq by auto. now apply emitd_line.
  - now apply body1020_one_line.
  - reflexivity.
  - now apply eats1020.
  - unfold dr, read1020, upd_aux; now destruct (map norm_var (r3_aux r)).
  - cbn [setupArrays]. unfold setup_1010, h_int. rewrite Nv, Na. cbn [as_int bindR]. do 2 f_equal;
    now apply (pre_O_map (r3_vars r)).
  - intros m Hm. split; [discriminate|]. constructor; [eapply row_solid; eauto; discriminate|].
    apply Forall_map, Forall_map. eapply Forall_impl; [|exact (Hlt m Hm)]. intros c Hcl. eapply row_solid; eauto.
    intros K. apply (f_equal (@length _)) in K. rewrite chunk_length in K by auto. simpl in K. lia.
  - intros m rest Hm. do 2 eexists. cbn [readData1 readData2]. split.
    { rewrite nls_app, <- app_assoc. apply readData1_1010_ok; auto. }
    unfold readData2_1020, h_int. rewrite Nv, Np. cbn [as_int bindR].
    assert (Hch : Forall (fun l => length l = p) (map (chunk p m) (r3_v r))).
    { apply Forall_map. eapply Forall_impl; [|exact (Hlt m Hm)]. intros c. apply chunk_length. }
    assert (Hcc : length (concat (map (chunk p m) (r3_v r))) = (length (r3_v r) * p)%nat).
    { rewrite <- (map_length (chunk p m)). clear - Hch. induction Hch as [|l ls Hl Hls IH]; [reflexivity|].
      cbn [concat length]. rewrite app_length, IH, Hl. lia. }
    rewrite (items_rows o Hd g Hf).
    2:{ intros K. apply map_eq_nil in K. rewrite K in Hl2. destruct Hv as [Hv _]. now destruct (r3_vars r). }
    2:{ eapply Forall_impl; [|exact Hch]. intros l Hl. intros ->. simpl in Hl. lia. }
    2:{ rewrite Hcc. lia. }
    cbn [bindR d_V].
    assert (Hvs : Forall (fun c => (m + 1) * p <= length c)%nat vs).
    { apply Forall_map. eapply Forall_impl; [|exact (Hlt m Hm)]. intros c. now rewrite map_length. }
    match goal with |- bindR ?L _ = _ => assert (E : L = Ok (pre (S m * p) vs)) end.
    { unfold range. rewrite !Nat2Z.id.
      replace (length (r3_v r)) with (length (pre (m * p) vs)) by (unfold pre, vs; now rewrite !map_length).
      apply forR_cols; [unfold pre; now rewrite !map_length|].
      intros i a b Hi Hil. unfold pre in Hil |- *. rewrite map_length in Hil.
      rewrite (nth_map_lt _ vs i []), (nth_map_lt _ vs i []) by auto.
      assert (Hci : ((m + 1) * p <= length (nth i vs []))%nat) by (rewrite Forall_forall in Hvs; apply Hvs, nth_In; auto).
      rewrite firstn_chunk by auto.
      assert (Hlc : length (chunk p m (nth i vs [])) = p) by now apply chunk_length.
      apply (forR_append p _ a _ b (chunk p m (nth i vs []))); auto.
      intros j a' x b' Hj Ha'.
      rewrite (nth_res_map pv _ _ (at_ j (chunk p m (nth i vs [])))).
      + cbn [bindR]. rewrite <- Hi, <- Ha'. apply modify_nth_app.
      + rewrite concat_map. apply (at_concat p).
        * apply Forall_map. eapply Forall_impl; [|exact Hch]. intros l. now rewrite map_length.
        * exact Hj.
        * rewrite map_map. unfold vs in Hil |- *. rewrite map_length in Hil.
          rewrite (nth_map_lt _ (r3_v r) i []) by auto. rewrite (nth_map_lt (map (data_num g)) (r3_v r) i []) by auto.
          rewrite chunk_map. apply nth_error_nth'. unfold vs in Hlc.
          rewrite (nth_map_lt (map (data_num g)) (r3_v r) i []) in Hlc by auto. rewrite chunk_map in Hlc. lia. }
    rewrite E. reflexivity.
  - cbn [store d_X d_V d_A]. unfold vs. unfold M in *. rewrite !full_cols by auto. rewrite marks_all by apply map_length.
    intros k. unfold dr, read1020, items1020. cbn [r3_common r3_vars r3_aux norm1020 r3_dx r3_nvpm r3_xname r3_x r3_a r3_v].
    unfold upd_aux, aux_items. destruct (map norm_var (r3_aux r)); destruct k; reflexivity.
Qed.
Theorem rt1020 r d nlh : ok1020 r -> has d (items1020 r) -> attr d kNLHEAD = PInt nlh ->
  comes_back o C1020 d (items1020 (norm1020 g r)).
Proof. intros. eapply comes_back_of, rt1020_as; eauto. Qed.
End RT1.
