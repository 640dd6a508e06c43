(** What was read once comes back unchanged. *)
From Coq Require Import List NArith ZArith Bool Lia.
From Verif Require Import Py.Str Py.Res Py.Num Model.Dict Model.TextParser Model.CommonUtils
  Model.NAWrite Model.NARead Spec.TextSpec Spec.Records Spec.RoundTripSpec
  Proofs.StrLemmas Proofs.NumLemmas Proofs.TextLemmas Proofs.WriteFrame Proofs.WriteSim Proofs.RTText Proofs.RTHead Proofs.RTRead
  Proofs.RTData Proofs.RT1 Proofs.RT2 Proofs.RT3 Proofs.RT4 Proofs.RT5 Proofs.RT6.
Import ListNotations.

Section RT7.
Context {num : Type} `{NumOps num}.
Variable o : opts num.
Hypothesis Hann : o_annot o = false.
Hypothesis Hd : delim_ok (o_delim o).
Hypothesis Hs : str_law.
Variable g : num -> num.
Hypothesis Hf : fmt_law (o_fmt o) g.
Hypothesis Hst : fmt_stable (o_fmt o) g.
Local Notation dl := (o_delim o).
Local Notation number := (number num).
Local Notation dn := (data_num g).

Lemma hdr_is c d d1 Hd0 h file hdr d2 :
  (forall f, writeHeader o c (mkW f [] d) = (Ok tt, mkW (f ++ Hd0) Hd0 d1)) ->
  write_body o c false (mkW [] h d) = (Ok tt, mkW file hdr d2) -> hdr = Hd0.
Proof.
  intros K E. unfold write_body, bindW in E. cbn [w_file w_na] in E. rewrite K in E.
  apply (dstep_data o) in E as [_ E]. exact E.
Qed.

Lemma settled_intro c d L1 L2 H1 items :
  comes_back_as o c d items L1 ->
  (forall d', is_dict d' (read_items H1 ++ items) -> comes_back_as o c d' items L2) ->
  (forall h file hdr d2, write_body o c false (mkW [] h d) = (Ok tt, mkW file hdr d2) -> count_chr c_nl hdr = H1) ->
  (forall d' h file hdr d2, is_dict d' (read_items H1 ++ items) ->
     write_body o c false (mkW [] h d') = (Ok tt, mkW file hdr d2) -> count_chr c_nl hdr = H1) ->
  settled o c d.
Proof.
  intros K1 K2 N1 N2 h h' h''. destruct (K1 h) as (hdr & d2 & E & data & d' & E1 & E2 & E3).
  rewrite (N1 _ _ _ _ E) in E3.
  destruct (K2 d' E3 h') as (hdr' & d2' & F & data' & d'' & F1 & F2 & F3).
  rewrite (N2 _ _ _ _ _ E3 F) in F3.
  destruct (K2 d'' F3 h'') as (hdr3 & d3 & G & _).
  exists (mkW (unlines L1) hdr d2), d', (mkW (unlines L2) hdr' d2'), d'', (mkW (unlines L2) hdr3 d3).
  repeat (split; [assumption || reflexivity|]). split; [|reflexivity].
  intros k. now rewrite E3, F3.
Qed.

(** ** Normal forms *)
Lemma idem_dn n : dn (dn n) = dn n.
Proof. unfold data_num. cbn [val]. now rewrite (g_idem o g Hf Hst). Qed.
Lemma idem_dns l : map dn (map dn l) = map dn l.
Proof. rewrite map_map. apply map_ext, idem_dn. Qed.
Lemma idem_dnss l : map (map dn) (map (map dn) l) = map (map dn) l.
Proof. rewrite map_map. apply map_ext, idem_dns. Qed.
Lemma idem_dnsss l : map (map (map dn)) (map (map (map dn)) l) = map (map (map dn)) l.
Proof. rewrite map_map. apply map_ext, idem_dnss. Qed.
Lemma idem_common c : norm_common (norm_common c) = norm_common c.
Proof.
  apply norm_common_read. split; cbn [norm_common c_scom c_ncom]; apply Forall_map, Forall_forall; intros s _; apply strip_trimmed.
Qed.
Lemma idem_vars (vs : list (var num)) : map norm_var (map norm_var vs) = map norm_var vs.
Proof. rewrite map_map. apply map_ext. reflexivity. Qed.
Lemma len_comments c : length (comment_lines (norm_common c)) = length (comment_lines c).
Proof. unfold comment_lines, norm_common. cbn [c_scom c_ncom]. cbn [length]. rewrite !app_length. cbn [length]. now rewrite !map_length. Qed.
Lemma len_vars vs : length (var_lines o (map norm_var vs)) = length (var_lines o vs).
Proof. unfold var_lines. rewrite !app_length, !map_length. reflexivity. Qed.
Lemma len_aux vs : length (aux_lines o (map norm_var vs)) = length (aux_lines o vs).
Proof. destruct vs; [reflexivity|]. unfold aux_lines. cbn [map length]. rewrite !app_length. cbn [length]. now rewrite !map_length. Qed.
Lemma count_header ffi body : Forall one_line body -> count_chr c_nl (unlines (header o ffi body)) = S (length body).
Proof. intros K. rewrite count_unlines; [reflexivity|]. now apply header_one_line. Qed.
Ltac nodup := repeat (constructor; [cbn; intuition discriminate|]); constructor.
Ltac nodup_aux := match goal with |- context [aux_items (map norm_var ?a)] => destruct a; cbn [map aux_items]; nodup end.

(** ** 1001 *)
Lemma norm_norm1001 r : norm1001 g (norm1001 g r) = norm1001 g r.
Proof. unfold norm1001. cbn [r1_common r1_vars r1_dx r1_xname r1_x r1_v]. now rewrite idem_common, idem_vars, idem_dns, idem_dnss. Qed.
Lemma body_len1001 r : length (body1001 o (norm1001 g r)) = length (body1001 o r).
Proof.
  unfold body1001, norm1001. cbn [r1_common r1_vars r1_dx r1_xname]. rewrite !app_length, len_comments, len_vars. reflexivity.
Qed.

Lemma body1001_one_line r : ok1001 r -> Forall one_line (body1001 o r).
Proof.
  intros (Hc & Hv & Hx & _). unfold body1001.
  apply Forall_app. split; [now apply common_one_line|].
  apply Forall_app. split; [constructor; auto; apply token_one_line, s_of_token, Hs|].
  apply Forall_app. split; [constructor; auto; now apply name_one_line|].
  apply Forall_app. split; [now apply var_one_line|now apply comments_one_line].
Qed.
Theorem settled1001 r d nlh : ok1001 r -> has d (items1001 r) -> attr d kNLHEAD = PInt nlh -> settled o C1001 d.
Proof.
  intros Hr Hh Hn.
  assert (R : forall d', is_dict d' (read_items (S (length (body1001 o r))) ++ items1001 (norm1001 g r)) ->
    has d' (items1001 (norm1001 g r)) /\ exists n, attr d' kNLHEAD = PInt n).
  { intros d' Hi. apply read_has in Hi as (K1 & K2 & _); [eauto|unfold items1001; nodup]. }
  apply (settled_intro C1001 d (lines1001 o r) (lines1001 o (norm1001 g r)) (S (length (body1001 o r))) (items1001 (norm1001 g r))).
  - eapply rt1001_as; eauto.
  - intros d' Hi. destruct (R d' Hi) as [K1 [n K2]]. rewrite <- (norm_norm1001 r) at 1. eapply rt1001_as; eauto using ok_norm1001.
  - intros h file hdr d2 E. apply (hdr_is _ _ _ _ _ _ _ _ (fun f => write1001 o Hann Hd Hs r d nlh f Hh Hr Hn)) in E. subst hdr.
    apply count_header. now apply body1001_one_line.
  - intros d' h file hdr d2 Hi E. destruct (R d' Hi) as [K1 [n K2]]. pose proof (ok_norm1001 g r Hr) as Hr'.
    apply (hdr_is _ _ _ _ _ _ _ _ (fun f => write1001 o Hann Hd Hs _ d' n f K1 Hr' K2)) in E. subst hdr.
    rewrite count_header by now apply body1001_one_line. now rewrite body_len1001.
Qed.

(** ** 1010 *)
Lemma norm_norm1010 r : norm1010 g (norm1010 g r) = norm1010 g r.
Proof. unfold norm1010. cbn [r2_common r2_vars r2_aux r2_dx r2_xname r2_x r2_a r2_v]. now rewrite idem_common, !idem_vars, idem_dns, !idem_dnss. Qed.
Lemma body_len1010 r : length (body1010 o (norm1010 g r)) = length (body1010 o r).
Proof.
  unfold body1010, norm1010. cbn [r2_common r2_vars r2_aux r2_dx r2_xname r2_x r2_a r2_v fst snd]. rewrite !app_length, len_comments, len_vars, len_aux. reflexivity.
Qed.
Theorem settled1010 r d nlh : ok1010 r -> has d (items1010 r) -> attr d kNLHEAD = PInt nlh -> settled o C1010 d.
Proof.
  intros Hr Hh Hn.
  assert (R : forall d', is_dict d' (read_items (S (length (body1010 o r))) ++ items1010 (norm1010 g r)) ->
    has d' (items1010 (norm1010 g r)) /\ exists n, attr d' kNLHEAD = PInt n).
  { intros d' Hi. apply read_has in Hi as (K1 & K2 & _); [eauto|unfold items1010, norm1010; cbn [r2_aux]; nodup_aux]. }
  apply (settled_intro C1010 d (lines1010 o r) (lines1010 o (norm1010 g r)) (S (length (body1010 o r))) (items1010 (norm1010 g r))).
  - eapply rt1010_as; eauto.
  - intros d' Hi. destruct (R d' Hi) as [K1 [n K2]]. rewrite <- (norm_norm1010 r) at 1. eapply rt1010_as; eauto using ok_norm1010.
  - intros h file hdr d2 E. apply (hdr_is _ _ _ _ _ _ _ _ (fun f => write1010 o Hann Hd Hs r d nlh f Hh Hr Hn)) in E. subst hdr.
    apply count_header. eapply body1010_one_line; eauto.
  - intros d' h file hdr d2 Hi E. destruct (R d' Hi) as [K1 [n K2]]. pose proof (ok_norm1010 g r Hr) as Hr'.
    apply (hdr_is _ _ _ _ _ _ _ _ (fun f => write1010 o Hann Hd Hs _ d' n f K1 Hr' K2)) in E. subst hdr.
    rewrite count_header by (eapply body1010_one_line; eauto). now rewrite body_len1010.
Qed.

(** ** 1020 *)
Lemma norm_norm1020 r : norm1020 g (norm1020 g r) = norm1020 g r.
Proof. unfold norm1020. cbn [r3_common r3_vars r3_aux r3_dx r3_nvpm r3_xname r3_x r3_a r3_v]. now rewrite idem_common, !idem_vars, idem_dns, !idem_dnss. Qed.
Lemma body_len1020 r : length (body1020 o (norm1020 g r)) = length (body1020 o r).
Proof.
  unfold body1020, norm1020. cbn [r3_common r3_vars r3_aux r3_dx r3_nvpm r3_xname r3_x r3_a r3_v fst snd]. rewrite !app_length, len_comments, len_vars, len_aux. reflexivity.
Qed.
Theorem settled1020 r d nlh : ok1020 r -> has d (items1020 r) -> attr d kNLHEAD = PInt nlh -> settled o C1020 d.
Proof.
  intros Hr Hh Hn.
  assert (R : forall d', is_dict d' (read_items (S (length (body1020 o r))) ++ items1020 (norm1020 g r)) ->
    has d' (items1020 (norm1020 g r)) /\ exists n, attr d' kNLHEAD = PInt n).
  { intros d' Hi. apply read_has in Hi as (K1 & K2 & _); [eauto|unfold items1020, norm1020; cbn [r3_aux]; nodup_aux]. }
  apply (settled_intro C1020 d (lines1020 o r) (lines1020 o (norm1020 g r)) (S (length (body1020 o r))) (items1020 (norm1020 g r))).
  - eapply rt1020_as; eauto.
  - intros d' Hi. destruct (R d' Hi) as [K1 [n K2]]. rewrite <- (norm_norm1020 r) at 1. eapply rt1020_as; eauto using ok_norm1020.
  - intros h file hdr d2 E. apply (hdr_is _ _ _ _ _ _ _ _ (fun f => write1020 o Hann Hd Hs r d nlh f Hh Hr Hn)) in E. subst hdr.
    apply count_header. eapply body1020_one_line; eauto.
  - intros d' h file hdr d2 Hi E. destruct (R d' Hi) as [K1 [n K2]]. pose proof (ok_norm1020 g r Hr) as Hr'.
    apply (hdr_is _ _ _ _ _ _ _ _ (fun f => write1020 o Hann Hd Hs _ d' n f K1 Hr' K2)) in E. subst hdr.
    rewrite count_header by (eapply body1020_one_line; eauto). now rewrite body_len1020.
Qed.

(** ** 2110 *)
Lemma norm_norm2110 r : norm2110 g (norm2110 g r) = norm2110 g r.
Proof. unfold norm2110. cbn [r5_common r5_vars r5_aux r5_dx r5_xname r5_x r5_a r5_v fst snd]. rewrite idem_common, !idem_vars, idem_dnss, idem_dnsss. f_equal. rewrite map_map. apply map_ext. intros m. unfold norm_mark. cbn [m_x m_in]. now rewrite idem_dn, idem_dns. Qed.
Lemma body_len2110 r : length (body2110 o (norm2110 g r)) = length (body2110 o r).
Proof.
  unfold body2110, norm2110. cbn [r5_common r5_vars r5_aux r5_dx r5_xname r5_x r5_a r5_v fst snd fst snd]. rewrite !app_length, len_comments, len_vars, len_aux. reflexivity.
Qed.
Theorem settled2110 r d nlh : ok2110 g r -> has d (items2110 r) -> attr d kNLHEAD = PInt nlh -> settled o C2110 d.
Proof.
  intros Hr Hh Hn.
  assert (R : forall d', is_dict d' (read_items (S (length (body2110 o r))) ++ items2110 (norm2110 g r)) ->
    has d' (items2110 (norm2110 g r)) /\ exists n, attr d' kNLHEAD = PInt n).
  { intros d' Hi. apply read_has in Hi as (K1 & K2 & _); [eauto|unfold items2110, norm2110; cbn [r5_aux]; nodup_aux]. }
  apply (settled_intro C2110 d (lines2110 o r) (lines2110 o (norm2110 g r)) (S (length (body2110 o r))) (items2110 (norm2110 g r))).
  - eapply rt2110_as; eauto.
  - intros d' Hi. destruct (R d' Hi) as [K1 [n K2]]. rewrite <- (norm_norm2110 r) at 1. eapply rt2110_as; eauto using ok_norm2110.
  - intros h file hdr d2 E. apply (hdr_is _ _ _ _ _ _ _ _ (fun f => write2110 o Hann Hd Hs g r d nlh f Hh Hr Hn)) in E. subst hdr.
    apply count_header. eapply body2110_one_line; eauto.
  - intros d' h file hdr d2 Hi E. destruct (R d' Hi) as [K1 [n K2]]. pose proof (ok_norm2110 o g Hf Hst r Hr) as Hr'.
    apply (hdr_is _ _ _ _ _ _ _ _ (fun f => write2110 o Hann Hd Hs g _ d' n f K1 Hr' K2)) in E. subst hdr.
    rewrite count_header by (eapply body2110_one_line; eauto). now rewrite body_len2110.
Qed.

(** ** 2310 *)
Lemma norm_norm2310 r : norm2310 g (norm2310 g r) = norm2310 g r.
Proof. unfold norm2310. cbn [r7_common r7_var r7_aux r7_dx r7_xname r7_x r7_nx r7_a r7_v]. rewrite idem_common, idem_vars, idem_dns, !idem_dnss. f_equal. now destruct (r7_dx r). Qed.
Lemma body_len2310 r : length (body2310 o (norm2310 g r)) = length (body2310 o r).
Proof.
  unfold body2310, norm2310. cbn [r7_common r7_var r7_aux r7_dx r7_xname r7_x r7_nx r7_a r7_v fst snd]. rewrite !app_length, len_comments, len_aux. change [norm_var (r7_var r)] with (map norm_var [r7_var r]). rewrite len_vars. reflexivity.
Qed.
Theorem settled2310 r d nlh : ok2310 g r -> has d (items2310 r) -> attr d kNLHEAD = PInt nlh -> settled o C2310 d.
Proof.
  intros Hr Hh Hn.
  assert (R : forall d', is_dict d' (read_items (S (length (body2310 o r))) ++ items2310 (norm2310 g r)) ->
    has d' (items2310 (norm2310 g r)) /\ exists n, attr d' kNLHEAD = PInt n).
  { intros d' Hi. apply read_has in Hi as (K1 & K2 & _); [eauto|unfold items2310, norm2310; cbn [r7_aux]; nodup_aux]. }
  apply (settled_intro C2310 d (lines2310 o r) (lines2310 o (norm2310 g r)) (S (length (body2310 o r))) (items2310 (norm2310 g r))).
  - eapply rt2310_as; eauto.
  - intros d' Hi. destruct (R d' Hi) as [K1 [n K2]]. rewrite <- (norm_norm2310 r) at 1. eapply rt2310_as; eauto using ok_norm2310.
  - intros h file hdr d2 E. apply (hdr_is _ _ _ _ _ _ _ _ (fun f => write2310 o Hann Hd Hs g r d nlh f Hh Hr Hn)) in E. subst hdr.
    apply count_header. eapply body2310_one_line; eauto.
  - intros d' h file hdr d2 Hi E. destruct (R d' Hi) as [K1 [n K2]]. pose proof (ok_norm2310 o g Hf Hst r Hr) as Hr'.
    apply (hdr_is _ _ _ _ _ _ _ _ (fun f => write2310 o Hann Hd Hs g _ d' n f K1 Hr' K2)) in E. subst hdr.
    rewrite count_header by (eapply body2310_one_line; eauto). now rewrite body_len2310.
Qed.

(** ** 2160 *)
Lemma norm_norm2160 r : norm2160 g (norm2160 g r) = norm2160 g r.
Proof.
  unfold norm2160. cbn [r6_common r6_vars r6_aux r6_caux r6_dx r6_lenx r6_xname r6_x r6_a r6_ca r6_v].
  rewrite idem_common, !idem_vars, idem_dnss, idem_dnsss. f_equal. rewrite map_map. apply map_ext. intros m. cbn [m_x m_in]. now rewrite idem_dns.
Qed.
Lemma body_len2160 r : length (body2160 o (norm2160 g r)) = length (body2160 o r).
Proof.
  unfold body2160, caux_lines, norm2160. cbn [r6_common r6_vars r6_aux r6_caux r6_dx r6_lenx r6_xname fst snd].
  rewrite !app_length, len_comments, len_vars, !map_length. reflexivity.
Qed.
Theorem settled2160 r d nlh : ok2160 g r -> has d (items2160 r) -> attr d kNLHEAD = PInt nlh ->
  d kIGN = None \/ d kIGN = Some PNone \/ d kIGN = Some (PList []) -> settled o C2160 d.
Proof.
  intros Hr Hh Hn Hig.
  assert (R : forall d', is_dict d' (read_items (S (length (body2160 o r))) ++ items2160 (norm2160 g r)) ->
    has d' (items2160 (norm2160 g r)) /\ (exists n, attr d' kNLHEAD = PInt n) /\
    (d' kIGN = None \/ d' kIGN = Some PNone \/ d' kIGN = Some (PList []))).
  { intros d' Hi. apply read_has in Hi as (K1 & K2 & K3); [eauto 8|unfold items2160; nodup]. }
  apply (settled_intro C2160 d (lines2160 o r) (lines2160 o (norm2160 g r)) (S (length (body2160 o r))) (items2160 (norm2160 g r))).
  - eapply rt2160_as; eauto.
  - intros d' Hi. destruct (R d' Hi) as (K1 & [n K2] & K3). rewrite <- (norm_norm2160 r) at 1. eapply rt2160_as; eauto using ok_norm2160.
  - intros h file hdr d2 E. apply (hdr_is _ _ _ _ _ _ _ _ (fun f => write2160 o Hann Hd Hs g r d nlh f Hh Hr Hn Hig)) in E. subst hdr.
    apply count_header. eapply body2160_one_line; eauto.
  - intros d' h file hdr d2 Hi E. destruct (R d' Hi) as (K1 & [n K2] & K3). pose proof (ok_norm2160 o g Hf Hst r Hr) as Hr'.
    apply (hdr_is _ _ _ _ _ _ _ _ (fun f => write2160 o Hann Hd Hs g _ d' n f K1 Hr' K2 K3)) in E. subst hdr.
    rewrite count_header by (eapply body2160_one_line; eauto). now rewrite body_len2160.
Qed.

(** ** 2010, 3010, 4010 *)
Lemma nested_idem f k (v : nested num k) : (forall n, f (f n) = f n) -> nested_map f (nested_map f v) = nested_map f v.
Proof.
  intros K. induction k as [|k IH]; [apply K|]. cbn [nested_map]. rewrite map_map. apply map_ext. exact IH.
Qed.
Lemma norm_norm2010 r : norm2010 g (norm2010 g r) = norm2010 g r.
Proof.
  unfold norm2010. cbn [r4_common r4_vars r4_aux r4_dx r4_xname r4_nx r4_axes r4_x r4_a r4_v].
  rewrite idem_common, !idem_vars, idem_dns, idem_dnss. f_equal.
  - rewrite map_map. apply map_ext. intros a. unfold norm_axis. cbn [x_dx x_def x_name]. now rewrite idem_dns.
  - rewrite map_map. apply map_ext. intros v. rewrite map_map. apply map_ext. intros w. apply nested_idem, idem_dn.
Qed.
Lemma body_len2010 r : length (body2010 o (norm2010 g r)) = length (body2010 o r).
Proof.
  unfold body2010, defs, xnames, norm2010. cbn [r4_common r4_vars r4_aux r4_dx r4_xname r4_nx r4_axes].
  rewrite !app_length, len_comments, len_vars, len_aux, !map_length, !rev_length. cbn [length]. rewrite !map_length. reflexivity.
Qed.
Lemma palin_norm r : palindromic_def r -> palindromic_def (norm2010 g r).
Proof.
  intros Hp. unfold palindromic_def, norm2010. cbn [r4_axes]. rewrite map_map.
  rewrite (map_ext (fun x => length (x_def (norm_axis g x))) (fun x => length (x_def x))); [exact Hp|].
  intros a. cbn. apply map_length.
Qed.
Theorem settled2010 c r d nlh : fam c (length (r4_nx r)) -> ok2010 r -> palindromic_def r ->
  has d (items2010 r) -> attr d kNLHEAD = PInt nlh -> settled o c d.
Proof.
  intros Hfam Hr Hp Hh Hn.
  assert (R : forall d', is_dict d' (read_items (S (length (body2010 o r))) ++ items2010 (norm2010 g r)) ->
    has d' (items2010 (norm2010 g r)) /\ exists n, attr d' kNLHEAD = PInt n).
  { intros d' Hi. apply read_has in Hi as (K1 & K2 & _); [eauto|unfold items2010, norm2010; cbn [r4_aux]; nodup_aux]. }
  apply (settled_intro c d (lines2010 o r) (lines2010 o (norm2010 g r)) (S (length (body2010 o r))) (items2010 (norm2010 g r))).
  - eapply rt2010_as; eauto.
  - intros d' Hi. destruct (R d' Hi) as [K1 [n K2]]. rewrite <- (norm_norm2010 r) at 1. eapply rt2010_as; eauto using ok_norm2010, palin_norm.
  - intros h file hdr d2 E. apply (hdr_is _ _ _ _ _ _ _ _ (fun f => write2010 o Hann Hd Hs g Hf c r d nlh f Hfam Hh Hr Hn)) in E. subst hdr.
    apply count_header. eapply body2010_one_line; eauto.
  - intros d' h file hdr d2 Hi E. destruct (R d' Hi) as [K1 [n K2]]. pose proof (ok_norm2010 g r Hr) as Hr'.
    apply (hdr_is _ _ _ _ _ _ _ _ (fun f => write2010 o Hann Hd Hs g Hf c (norm2010 g r) d' n f Hfam K1 Hr' K2)) in E. subst hdr.
    rewrite count_header by (eapply body2010_one_line; eauto). now rewrite body_len2010.
Qed.
End RT7.
