(** Writing what was read gives the same file. *)
From Coq Require Import List NArith ZArith Bool Lia.
From Verif Require Import Py.Str Py.Res Py.Num Model.Dict Model.TextParser Model.CommonUtils
  Model.NAWrite Model.NARead Spec.TextSpec Spec.Records Spec.RoundTripSpec
  Proofs.StrLemmas Proofs.NumLemmas Proofs.TextLemmas Proofs.WriteFrame Proofs.WriteSim Proofs.RTText Proofs.RTHead Proofs.RTRead
  Proofs.RTData Proofs.RT1 Proofs.RT2 Proofs.RT3 Proofs.RT4 Proofs.RT5.
Import ListNotations.

Section RT6.
Context {num : Type} `{NumOps num}.
Variable o : opts num.
Hypothesis Hann : o_annot o = false.
Hypothesis Hd : delim_ok (o_delim o).
Hypothesis Hs : str_law.
Variable g : num -> num.
Hypothesis Hf : fmt_law (o_fmt o) g.
Hypothesis Hst : fmt_stable (o_fmt o) g.
Local Notation dl := (o_delim o).
Local Notation number := (number num).
Local Notation dn := (data_num g).

Lemma g_idem x : g (g x) = g x.
Proof.
  destruct (Hf (g x)) as [_ E1]. destruct (Hf x) as [_ E2]. rewrite Hst in E1. congruence.
Qed.
Lemma head_float n : is_float n -> head_num (num:=num) n = n.
Proof. intros [x ->]. reflexivity. Qed.
Lemma norm_float vs : float_vars vs -> map (norm_var (num:=num)) vs = vs.
Proof.
  induction 1 as [|v vs [H1 H2] _ IH]; [reflexivity|]. cbn [map]. rewrite IH. f_equal.
  destruct v as [a b c]. unfold norm_var. cbn [v_scal v_miss v_name] in *. now rewrite !head_float.
Qed.
Lemma row_dn l : row o (map dn l) = row o l.
Proof.
  unfold row. f_equal. rewrite map_map. apply map_ext. intros n. unfold d_of. cbn [data_num val]. apply Hst.
Qed.
Lemma at_row m (c : list number) cs : (m < length c)%nat -> Forall (fun a => m < length a)%nat cs ->
  row o (at_ m (map dn c) :: col m (map (map dn) cs)) = row o (at_ m c :: col m cs).
Proof. intros H1 H2. rewrite at_map, col_map by auto. apply (row_dn (at_ m c :: col m cs)). Qed.

(** ** From lines to files *)
Lemma same_again_intro c d L items items' :
  comes_back_as o c d items L ->
  (forall d' n, is_dict d' (read_items n ++ items) -> comes_back_as o c d' items' L) ->
  same_again o c d.
Proof.
  intros H1 H2 h h'. destruct (H1 h) as (hdr & d2 & E & data & d' & E1 & E2 & E3).
  destruct (H2 d' _ E3 h') as (hdr' & d2' & E' & _).
  exists (unlines L), hdr, d2, d', hdr', d2'. auto.
Qed.
Lemma is_dict_has (d : na num) items : NoDup (map fst items) -> is_dict d items -> has d items.
Proof.
  intros Hn Hi k v Hk. rewrite Hi. clear Hi. induction items as [|[k' v'] items IH]; [contradiction|].
  cbn [find fst]. cbn [map fst] in Hn. inversion Hn as [|? ? N1 N2]; subst.
  destruct Hk as [E|Hk].
  - injection E as -> ->. now rewrite key_beq_refl.
  - destruct (key_beq k' k) eqn:E; [|auto]. apply key_beq_true in E. subst k'. exfalso. apply N1.
    change k with (fst (k, v)). now apply in_map.
Qed.

Ltac splits := repeat match goal with |- _ /\ _ => split end.
Ltac nodup := repeat (constructor; [cbn; intuition discriminate|]); constructor.
Lemma read_has (d : na num) n items : NoDup (map fst (read_items (num:=num) n ++ items)) ->
  is_dict d (read_items n ++ items) -> has d items /\ attr d kNLHEAD = PInt (Z.of_nat n) /\ d kIGN = Some (PList []).
Proof.
  intros Hn Hi. pose proof (is_dict_has _ _ Hn Hi) as K. repeat split.
  - intros k v Hk. apply K, in_or_app. now right.
  - unfold attr. rewrite (K kNLHEAD (PInt (Z.of_nat n))); [reflexivity|]. now left.
  - apply K. right. now left.
Qed.

Lemma vars_ok_norm vs : vars_ok vs -> vars_ok (map (norm_var (num:=num)) vs).
Proof.
  intros [H1 H2]. split; [now destruct vs|]. apply Forall_map. exact H2.
Qed.
Lemma auxs_ok_norm vs : auxs_ok vs -> auxs_ok (map (norm_var (num:=num)) vs).
Proof. intros H2. apply Forall_map. exact H2. Qed.
Lemma lens_norm (cs : list (list number)) n : Forall (fun c => length c = n) cs ->
  Forall (fun c => length c = n) (map (map dn) cs).
Proof. intros Hc. apply Forall_map. eapply Forall_impl; [|exact Hc]. intros c <-. now rewrite map_length. Qed.
Lemma at_len m n (c : list number) : length c = n -> (m < n)%nat -> (m < length c)%nat.
Proof. intros ->. auto. Qed.

Lemma strip_in s c : In c (strip s) -> In c s.
Proof.
  intros I. destruct (strip_decomp s) as (a & b & _ & _ & E & _). rewrite E. apply in_or_app. right. apply in_or_app. left. exact I.
Qed.
Lemma one_line_strip s : one_line s -> one_line (strip s).
Proof.
  intros [A B]. split; intros I; [apply A | apply B]; exact (strip_in _ _ I).
Qed.
Lemma common_ok_norm c : common_ok c -> common_ok (norm_common c).
Proof.
  intros (A & B & C & D & S & N). unfold common_ok, norm_common. cbn [c_oname c_org c_sname c_mname c_scom c_ncom].
  splits; auto; apply Forall_map; (eapply Forall_impl; [| eassumption]); intros s; apply one_line_strip.
Qed.
Lemma norm_common_read c : read_comments c -> norm_common c = c.
Proof.
  intros [S N]. destruct c as [a b e f h i j k sc nc]. unfold norm_common. cbn [c_oname c_org c_sname c_mname c_ivol c_nvol c_date c_rdate c_scom c_ncom] in *.
  assert (T : forall l, Forall trimmed l -> map strip l = l).
  { induction 1 as [| x l Hx _ IH]; [reflexivity |]. cbn [map]. now rewrite IH, trimmed_strip. }
  now rewrite !T.
Qed.

(** ** 1001 *)
Lemma ok_norm1001 r : ok1001 r -> ok1001 (norm1001 g r).
Proof.
  intros (H1 & H2 & H3 & H4 & H5). apply common_ok_norm in H1. unfold ok1001, norm1001. cbn. rewrite !map_length.
  splits; auto using vars_ok_norm, auxs_ok_norm, lens_norm; try lia.
Qed.
Lemma lines_norm1001 r : ok1001 r -> floats1001 r -> lines1001 o (norm1001 g r) = lines1001 o r.
Proof.
  intros (H1 & H2 & H3 & H4 & H5) (F0 & F1 & F2). unfold lines1001, body1001, norm1001. cbn [r1_common r1_vars r1_dx r1_xname r1_x r1_v].
  rewrite (norm_common_read _ F0), (head_float _ F1), (norm_float _ F2), map_length. f_equal. f_equal.
  apply map_ext_in. intros m Hm. apply in_seq in Hm. rewrite at_row; auto; [lia|]. apply (lens_lt m (length (r1_x r))); auto. lia.
Qed.
Theorem again1001 r d nlh : ok1001 r -> floats1001 r -> has d (items1001 r) -> attr d kNLHEAD = PInt nlh ->
  same_again o C1001 d.
Proof.
  intros Hr Hfl Hh Hn. eapply same_again_intro; [eapply rt1001_as; eauto|].
  intros d' n Hi. apply read_has in Hi as (K1 & K2 & _); [|unfold items1001; nodup].
  rewrite <- lines_norm1001 by auto. eapply rt1001_as; eauto using ok_norm1001.
Qed.

(** ** 1010 *)
Lemma ok_norm1010 r : ok1010 r -> ok1010 (norm1010 g r).
Proof.
  intros (H1 & H2 & H3 & H4 & H5 & H6 & H7 & H8). apply common_ok_norm in H1. unfold ok1010, norm1010. cbn. rewrite !map_length.
  splits; auto using vars_ok_norm, auxs_ok_norm, lens_norm; try lia.
Qed.
Lemma lines_norm1010 r : ok1010 r -> floats1010 r -> lines1010 o (norm1010 g r) = lines1010 o r.
Proof.
  intros (H1 & H2 & H3 & H4 & H5 & H6 & H7 & H8) (F0 & F1 & F2 & F3). unfold lines1010, body1010, norm1010.
  cbn [r2_common r2_vars r2_aux r2_dx r2_xname r2_x r2_a r2_v].
  rewrite (norm_common_read _ F0), (head_float _ F1), (norm_float _ F2), (norm_float _ F3), map_length. f_equal. f_equal.
  apply map_ext_in. intros m Hm. apply in_seq in Hm.
  assert (L : forall cs : list (list number), Forall (fun v => length v = length (r2_x r)) cs -> Forall (fun a => m < length a)%nat cs)
    by (intros cs K; apply (lens_lt m (length (r2_x r))); auto; lia).
  rewrite at_row, col_map, row_dn; auto. lia.
Qed.
Ltac nodup_aux := match goal with |- context [aux_items (map norm_var ?a)] => destruct a; cbn [map aux_items]; nodup end.
Theorem again1010 r d nlh : ok1010 r -> floats1010 r -> has d (items1010 r) -> attr d kNLHEAD = PInt nlh ->
  same_again o C1010 d.
Proof.
  intros Hr Hfl Hh Hn. eapply same_again_intro; [eapply rt1010_as; eauto|].
  intros d' n Hi. apply read_has in Hi as (K1 & K2 & _); [|unfold items1010, norm1010; cbn [r2_aux]; nodup_aux].
  rewrite <- lines_norm1010 by auto. eapply rt1010_as; eauto using ok_norm1010.
Qed.

(** ** 1020 *)
Lemma ok_norm1020 r : ok1020 r -> ok1020 (norm1020 g r).
Proof.
  intros (H1 & H2 & H3 & H4 & H5 & H6 & H7 & H8 & H9). apply common_ok_norm in H1. unfold ok1020, norm1020. cbn. rewrite !map_length.
  splits; auto using vars_ok_norm, auxs_ok_norm, lens_norm; try lia.
Qed.
Lemma lines_norm1020 r : ok1020 r -> floats1020 r -> lines1020 o (norm1020 g r) = lines1020 o r.
Proof.
  intros (H1 & H2 & H3 & H4 & H5 & H6 & H7 & H8 & H9) (F0 & F1 & F2 & F3). unfold lines1020, body1020, norm1020.
  cbn [r3_common r3_vars r3_aux r3_dx r3_nvpm r3_xname r3_x r3_a r3_v].
  rewrite (norm_common_read _ F0), (head_float _ F1), (norm_float _ F2), (norm_float _ F3), map_length. f_equal. f_equal.
  apply map_ext_in. intros m Hm. apply in_seq in Hm.
  rewrite at_row; [|lia|apply (lens_lt m (length (r3_x r))); auto; lia]. f_equal.
  rewrite !map_map. apply map_ext. intros c. rewrite chunk_map. apply row_dn.
Qed.
Theorem again1020 r d nlh : ok1020 r -> floats1020 r -> has d (items1020 r) -> attr d kNLHEAD = PInt nlh ->
  same_again o C1020 d.
Proof.
  intros Hr Hfl Hh Hn. eapply same_again_intro; [eapply rt1020_as; eauto|].
  intros d' n Hi. apply read_has in Hi as (K1 & K2 & _); [|unfold items1020, norm1020; cbn [r3_aux]; nodup_aux].
  rewrite <- lines_norm1020 by auto. eapply rt1020_as; eauto using ok_norm1020.
Qed.

(** ** 2110 *)
Lemma counts_norm {X Y} (f : mark num X -> mark num Y) xs a0 :
  (forall m, length (m_in (f m)) = length (m_in m)) -> counts_ok g xs a0 -> counts_ok g (map f xs) (map dn a0).
Proof.
  intros Hl K. unfold counts_ok in *. induction K as [|x n xs a0 E _ IH]; constructor; auto.
  rewrite Hl. cbn [data_num val]. now rewrite g_idem.
Qed.
Lemma inner_norm {X Y} (f : mark num X -> mark num Y) xs v :
  (forall m, length (m_in (f m)) = length (m_in m)) -> inner_ok xs v -> inner_ok (map f xs) (map (map dn) v).
Proof.
  intros Hl K. unfold inner_ok in *. induction K as [|x n xs a0 E _ IH]; constructor; auto.
  rewrite Hl. now rewrite map_length.
Qed.
Lemma inners_norm {X Y} (f : mark num X -> mark num Y) xs vs :
  (forall m, length (m_in (f m)) = length (m_in m)) -> Forall (inner_ok xs) vs ->
  Forall (inner_ok (map f xs)) (map (map (map dn)) vs).
Proof. intros Hl K. apply Forall_map. eapply Forall_impl; [|exact K]. intros v. now apply inner_norm. Qed.
Lemma nth0_map (cs : list (list number)) : nth 0 (map (map dn) cs) [] = map dn (nth 0 cs []).
Proof. now destruct cs. Qed.
Lemma ok_norm2110 r : ok2110 g r -> ok2110 g (norm2110 g r).
Proof.
  intros (H1 & H2 & H3 & H4 & H5 & H6 & H7 & H8 & H9 & H10 & H11). apply common_ok_norm in H1. unfold ok2110, norm2110.
  cbn [r5_common r5_vars r5_aux r5_dx r5_xname r5_x r5_a r5_v]. rewrite !map_length.
  assert (L : forall m, length (m_in (norm_mark g m)) = length (m_in m)) by (intros m; cbn; now rewrite map_length).
  splits; auto using vars_ok_norm, auxs_ok_norm, lens_norm; try lia.
  - now destruct (r5_aux r).
  - rewrite nth0_map. now apply counts_norm.
  - now apply inners_norm.
Qed.
Lemma inner_rows m xin vs : Forall (fun v => m < length v /\ length (nth m v []) = length xin)%nat vs ->
  map (row o) (inner m (map dn xin) (map (map (map dn)) vs)) = map (row o) (inner m xin vs).
Proof.
  intros Hv. unfold inner. rewrite map_length, !map_map. apply map_ext_in. intros p Hp. apply in_seq in Hp.
  replace (pts m (map (map (map dn)) vs)) with (map (map dn) (pts m vs)).
  2:{ unfold pts. rewrite !map_map. apply map_ext_in. intros v Hi. rewrite Forall_forall in Hv. destruct (Hv v Hi) as [K _].
      symmetry. now apply nth_map_lt. }
  apply at_row; [lia|]. unfold pts. apply Forall_map. eapply Forall_impl; [|exact Hv]. intros v [_ K]. lia.
Qed.
Lemma nth_ins {X} (f : mark num X -> mark num X) xs m : (forall k, m_in (f k) = map dn (m_in k)) ->
  nth m (map m_in (map f xs)) [] = map dn (nth m (map m_in xs) []).
Proof.
  intros Hfm. rewrite map_map. rewrite (map_ext _ (fun k => map dn (m_in k))) by auto.
  rewrite <- (map_map m_in (map dn)). destruct (Nat.lt_ge_cases m (length xs)) as [Hm|Hm].
  - apply nth_map_lt. now rewrite map_length.
  - rewrite !nth_overflow; auto; rewrite ?map_length; auto.
Qed.
Lemma lines_norm2110 r : ok2110 g r -> floats2110 r -> lines2110 o (norm2110 g r) = lines2110 o r.
Proof.
  intros (H1 & H2 & H3 & H4 & H5 & H6 & H7 & H8 & H9 & H10 & H11) (F0 & F1 & F2 & F3 & F4). unfold lines2110, body2110, norm2110.
  cbn [r5_common r5_vars r5_aux r5_dx r5_xname r5_x r5_a r5_v fst snd].
  rewrite (norm_common_read _ F0), (head_float _ F1), (head_float _ F2), (norm_float _ F3), (norm_float _ F4), map_length. f_equal. f_equal.
  apply map_ext_in. intros m Hm. apply in_seq in Hm.
  rewrite nth_ins by reflexivity.
  rewrite inner_rows.
  2:{ eapply Forall_impl; [|exact H11]. intros v Hi. apply inner_lens; auto. lia. }
  f_equal. f_equal. rewrite map_map. rewrite (map_ext _ (fun k => dn (m_x k))) by reflexivity.
  rewrite <- (map_map m_x dn). apply at_row; [rewrite map_length; lia|]. apply (lens_lt m (length (r5_x r))); auto. lia.
Qed.
Theorem again2110 r d nlh : ok2110 g r -> floats2110 r -> has d (items2110 r) -> attr d kNLHEAD = PInt nlh ->
  same_again o C2110 d.
Proof.
  intros Hr Hfl Hh Hn. eapply same_again_intro; [eapply rt2110_as; eauto|].
  intros d' n Hi. apply read_has in Hi as (K1 & K2 & _); [|unfold items2110, norm2110; cbn [r5_aux]; nodup_aux].
  rewrite <- lines_norm2110 by auto. eapply rt2110_as; eauto using ok_norm2110.
Qed.

(** ** 2160 *)
Lemma ok_norm2160 r : ok2160 g r -> ok2160 g (norm2160 g r).
Proof.
  intros (H1 & H2 & H3 & H4 & H5 & H6 & H7 & H8 & H9 & H10 & H11 & H12 & H13 & H14 & H15 & H16). apply common_ok_norm in H1. unfold ok2160, norm2160.
  cbn [r6_common r6_vars r6_aux r6_caux r6_dx r6_lenx r6_xname r6_x r6_a r6_ca r6_v]. rewrite !map_length.
  splits; auto using vars_ok_norm, auxs_ok_norm, lens_norm; try lia.
  - now destruct (r6_aux r).
  - apply Forall_map. exact H9.
  - rewrite nth0_map. apply counts_norm; auto. intros m. cbn. now rewrite map_length.
  - apply inners_norm; auto. intros m. cbn. now rewrite map_length.
Qed.
Lemma lines_norm2160 r : ok2160 g r -> floats2160 r -> lines2160 o (norm2160 g r) = lines2160 o r.
Proof.
  intros (H1 & H2 & H3 & H4 & H5 & H6 & H7 & H8 & H9 & H10 & H11 & H12 & H13 & H14 & H15 & H16) (F0 & F1 & F2 & F3 & F4).
  unfold lines2160, body2160, caux_lines, norm2160.
  cbn [r6_common r6_vars r6_aux r6_caux r6_dx r6_lenx r6_xname r6_x r6_a r6_ca r6_v].
  rewrite (norm_common_read _ F0), (head_float _ F1), (head_float _ F2), (norm_float _ F3), (norm_float _ F4), map_length. f_equal. f_equal.
  apply map_ext_in. intros m Hm. apply in_seq in Hm.
  rewrite nth_ins by reflexivity.
  rewrite inner_rows.
  2:{ eapply Forall_impl; [|exact H16]. intros v Hi. apply inner_lens; auto. lia. }
  f_equal. rewrite map_map. cbn [m_x]. rewrite col_map, row_dn; [reflexivity|]. apply (lens_lt m (length (r6_x r))); auto. lia.
Qed.
Theorem again2160 r d nlh : ok2160 g r -> floats2160 r -> has d (items2160 r) -> attr d kNLHEAD = PInt nlh ->
  d kIGN = None \/ d kIGN = Some PNone \/ d kIGN = Some (PList []) ->
  same_again o C2160 d.
Proof.
  intros Hr Hfl Hh Hn Hi0. eapply same_again_intro; [eapply rt2160_as; eauto|].
  intros d' n Hi. apply read_has in Hi as (K1 & K2 & K3); [|unfold items2160; nodup].
  rewrite <- lines_norm2160 by auto. eapply rt2160_as; eauto using ok_norm2160.
Qed.

(** ** 2310 *)
Lemma ok_norm2310 r : ok2310 g r -> ok2310 g (norm2310 g r).
Proof.
  intros (H1 & H2 & H3 & H4 & H5 & H6 & H7 & H8 & H9 & H10 & H11 & H12 & H13 & H14). apply common_ok_norm in H1. unfold ok2310, norm2310.
  cbn [r7_common r7_var r7_aux r7_dx r7_xname r7_x r7_nx r7_a r7_v]. rewrite !map_length.
  splits; auto using vars_ok_norm, auxs_ok_norm, lens_norm.
  - rewrite nth0_map. clear - H11 Hf Hst. induction H11 as [|n a ns as_ E _ IH]; constructor; auto.
    cbn [data_num val]. now rewrite g_idem.
  - clear - H12. induction H12 as [|n a ns as_ E _ IH]; constructor; auto. now rewrite map_length.
  - now destruct (r7_dx r).
  - replace (nth 2 (map (map dn) (r7_a r)) []) with (map dn (nth 2 (r7_a r) [])).
    2:{ symmetry. apply nth_map_lt. lia. }
    replace (tl _) with (tl (r7_dx r)) by now destruct (r7_dx r).
    clear - H14 Hf Hst. induction H14 as [|n a ns as_ E _ IH]; constructor; auto.
    cbn [data_num val]. now rewrite g_idem.
Qed.
Lemma lines_norm2310 r : ok2310 g r -> floats2310 r -> lines2310 o (norm2310 g r) = lines2310 o r.
Proof.
  intros (H1 & H2 & H3 & H4 & H5 & H6 & H7 & H8 & H9 & H10 & H11 & H12 & H13 & H14) (F0 & F1 & F2 & F3).
  unfold lines2310, body2310, norm2310, dx0. cbn [r7_common r7_var r7_aux r7_dx r7_xname r7_x r7_nx r7_a r7_v].
  rewrite (norm_common_read _ F0), (norm_float _ F3), map_length.
  change [norm_var (r7_var r)] with (map norm_var [r7_var r]). rewrite (norm_float _ F2).
  replace (hd (NI 0) (match r7_dx r with [] => [] | d :: t => head_num d :: t end)) with (hd (NI 0) (r7_dx r)).
  2:{ destruct (r7_dx r); [reflexivity|]. cbn [hd] in *. now rewrite head_float. }
  f_equal. f_equal. apply map_ext_in. intros m Hm. apply in_seq in Hm.
  rewrite at_row; [|lia|apply (lens_lt m (length (r7_x r))); auto; lia]. do 2 f_equal.
  assert (L : length (r7_v r) = length (r7_x r)) by (rewrite <- H8; clear - H12; induction H12; cbn [length]; congruence).
  rewrite (nth_map_lt (map dn) (r7_v r) m []) by lia. apply row_dn.
Qed.
Theorem again2310 r d nlh : ok2310 g r -> floats2310 r -> has d (items2310 r) -> attr d kNLHEAD = PInt nlh ->
  same_again o C2310 d.
Proof.
  intros Hr Hfl Hh Hn. eapply same_again_intro; [eapply rt2310_as; eauto|].
  intros d' n Hi. apply read_has in Hi as (K1 & K2 & _); [|unfold items2310, norm2310; cbn [r7_aux]; nodup_aux].
  rewrite <- lines_norm2310 by auto. eapply rt2310_as; eauto using ok_norm2310.
Qed.

(** ** 2010, 3010, 4010 *)
Lemma rows_of_map f dims (v : nested num (length dims)) : rows_of dims (nested_map f v) = map (map f) (rows_of dims v).
Proof.
  induction dims as [|d dims IH]; [reflexivity|]. destruct dims as [|d' dims]; [reflexivity|].
  cbn [rows_of nested_map length].
  rewrite concat_map, !map_map. f_equal. apply map_ext. exact IH.
Qed.
Lemma blk_map nx m v : blk nx m (map (nested_map dn) v) = map (map dn) (blk nx m v).
Proof.
  unfold blk. rewrite nth_error_map. destruct (nth_error v m); [|reflexivity]. cbn [option_map]. apply rows_of_map.
Qed.
Lemma ok_norm2010 r : ok2010 r -> ok2010 (norm2010 g r).
Proof.
  intros (H1 & H2 & H3 & H4 & H5 & H6 & H7 & H8 & H9 & H10 & H11 & H12). apply common_ok_norm in H1. unfold ok2010, norm2010.
  cbn [r4_common r4_vars r4_aux r4_dx r4_xname r4_nx r4_axes r4_x r4_a r4_v]. rewrite !map_length.
  splits; auto using vars_ok_norm, auxs_ok_norm, lens_norm; try lia.
  - apply Forall_map. eapply Forall_impl; [|exact H8]. intros a [K1 K2]. split; auto. cbn. now destruct (x_def a).
  - apply Forall_map. eapply Forall_impl; [|exact H12]. intros v [K1 K2]. rewrite map_length. split; auto.
    apply Forall_map. eapply Forall_impl; [|exact K2]. intros w. now apply shape_map.
Qed.
Lemma lines_norm2010 r : ok2010 r -> floats2010 r -> lines2010 o (norm2010 g r) = lines2010 o r.
Proof.
  intros (H1 & H2 & H3 & H4 & H5 & H6 & H7 & H8 & H9 & H10 & H11 & H12) (F0 & F1 & F2 & F3 & F4).
  assert (Ed : defs (norm2010 g r) = map (map dn) (defs r)) by (unfold defs, norm2010; cbn; now rewrite !map_map).
  assert (Ex : dxs (norm2010 g r) = dxs r).
  { unfold dxs, norm2010. cbn [r4_dx r4_axes]. rewrite (head_float _ F1). f_equal. rewrite map_map. apply map_ext_in.
    intros a Hi. cbn. apply head_float. rewrite Forall_forall in F2. auto. }
  assert (En : xnames (norm2010 g r) = xnames r) by (unfold xnames, norm2010; cbn; now rewrite !map_map).
  unfold lines2010, body2010. rewrite Ed, Ex, En. unfold norm2010.
  cbn [r4_common r4_vars r4_aux r4_dx r4_xname r4_nx r4_axes r4_x r4_a r4_v].
  rewrite (norm_common_read _ F0), (norm_float _ F3), (norm_float _ F4), map_length.
  replace (map (fun l => Z.of_nat (length l)) (map (map dn) (defs r))) with (map (fun l => Z.of_nat (length l)) (defs r)).
  2:{ rewrite map_map. apply map_ext. intros l. now rewrite map_length. }
  replace (map (row o) (rev (map (map dn) (defs r)))) with (map (row o) (rev (defs r))).
  2:{ rewrite <- !map_rev, map_map. apply map_ext. intros l. symmetry. apply row_dn. }
  f_equal. f_equal. apply map_ext_in. intros m Hm. apply in_seq in Hm.
  rewrite at_row; [|lia|apply (lens_lt m (length (r4_x r))); auto; lia]. f_equal.
  rewrite map_map. f_equal. apply map_ext. intros v. rewrite blk_map, map_map. apply map_ext. intros l. apply row_dn.
Qed.
Theorem again2010 c r d nlh : fam c (length (r4_nx r)) -> ok2010 r -> palindromic_def r -> floats2010 r ->
  has d (items2010 r) -> attr d kNLHEAD = PInt nlh -> same_again o c d.
Proof.
  intros Hc Hr Hp Hfl Hh Hn. eapply same_again_intro; [eapply rt2010_as; eauto|].
  intros d' n Hi. apply read_has in Hi as (K1 & K2 & _); [|unfold items2010, norm2010; cbn [r4_aux]; nodup_aux].
  rewrite <- lines_norm2010 by auto. eapply rt2010_as; eauto using ok_norm2010.
  unfold palindromic_def, norm2010. cbn [r4_axes]. rewrite map_map. 
  rewrite (map_ext (fun x => length (x_def (norm_axis g x))) (fun x => length (x_def x))); [exact Hp|].
  intros a. cbn. apply map_length.
Qed.
End RT6.
