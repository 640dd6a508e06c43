(** Round trip of FFI 2160. *)
From Coq Require Import List NArith ZArith Bool Lia.
From Verif Require Import Py.Str Py.Res Py.Num Model.Dict Model.TextParser Model.CommonUtils
  Model.NAWrite Model.NARead Spec.TextSpec Spec.Records Spec.RoundTripSpec
  Proofs.StrLemmas Proofs.NumLemmas Proofs.TextLemmas Proofs.WriteFrame Proofs.WriteSim Proofs.RTText Proofs.RTHead Proofs.RTRead
  Proofs.RTData Proofs.RT1 Proofs.RT2 Proofs.RT3 Proofs.RT4.
Import ListNotations.

(** ** Text *)
Lemma rstrip_by_keep p s c u : p c = false -> rstrip_by p (s ++ c :: u) = s ++ c :: rstrip_by p u.
Proof.
  intros Hc. destruct (rstrip_by_decomp p u) as (b & Hb & E & _).
  rewrite E at 1. rewrite app_comm_cons, app_assoc, rstrip_by_app by auto.
  destruct (rstrip_by_decomp p u) as (_ & _ & _ & [->|(t & c' & -> & Hc')]).
  - now apply rstrip_by_last.
  - rewrite app_comm_cons, app_assoc. now apply rstrip_by_last.
Qed.
Lemma blank_prefix a b : blank (a ++ b) -> blank a.
Proof. intros K. now apply blank_app in K. Qed.
Lemma char_line s dl : char_ok s -> delim_ok dl -> exists b, blank b /\ one_line (s ++ b) /\ rstrip_sc (s ++ dl) = s ++ b.
Proof.
  intros (Hn & Hne & Hc) (_ & Hb & Ho). destruct s as [|c t _] using rev_ind; [congruence|].
  destruct Hn as ((H1 & (_ & H2)) & _).
  destruct (rstrip_by_decomp is_sp_comma dl) as (u & Hu & E & _).
  exists (rstrip_by is_sp_comma dl). rewrite E in Hb, Ho. split; [now apply blank_prefix in Hb|].
  split.
  - apply one_line_app. split; auto. now apply one_line_app in Ho.
  - unfold rstrip_sc. rewrite <- app_assoc. cbn [app]. rewrite rstrip_by_keep; [now rewrite <- app_assoc|].
    unfold is_sp_comma. apply orb_false_iff. split; apply N.eqb_neq; intros ->.
    + now specialize (H2 _ t eq_refl).
    + now apply (Hc t).
Qed.
Lemma name_right_strip_blank s b : name_ok s -> blank b -> right_strip_braces (s ++ b) = s ++ b.
Proof.
  intros (_ & Ha & _) Hb. apply right_strip_payload. right. split; auto.
  induction b as [|c b IH] using rev_ind; [rewrite app_nil_r; exact Ha|].
  apply blank_app in Hb as [Hb Hc]. specialize (IH Hb).
  intros p g b2 (E & H1 & H2 & H3 & H4 & H5 & Hb2).
  destruct b2 as [|c2 b2 _] using rev_ind.
  - rewrite app_nil_r in E. rewrite !app_assoc in E. apply app_inj_tail in E as [_ E]. subst c.
    inversion Hc as [|? ? K _]; subst. discriminate.
  - rewrite !app_assoc in E. apply app_inj_tail in E as [E _].
    apply (IH p g b2). repeat split; auto; [now rewrite <- !app_assoc in E|]. now apply blank_app in Hb2.
Qed.
Section T.
Context {num : Type} `{NumOps num}.
Lemma char_item s b : name_ok s -> blank b ->
  readItemFromLine (num:=num) (right_strip_braces ((s ++ b) ++ nl)) TStr = Ok (PStr s).
Proof.
  intros Hn Hb. assert (Hbb : blank (b ++ nl)) by (apply blank_app; split; auto using blank_nl).
  rewrite <- app_assoc. rewrite name_right_strip_blank by auto. unfold readItemFromLine.
  rewrite name_right_strip_blank by auto. rewrite strip_app_sp by now apply blank_all_sp.
  destruct Hn as ((_ & Ht) & _ & Hq). rewrite trimmed_strip, name_no_quotes by auto. reflexivity.
Qed.
End T.
Lemma token_rstrip s : token_ok s -> rstrip_sc s = s.
Proof.
  intros ((Hne & Hsp) & Hc & _).
  destruct s as [|c t _] using rev_ind; [congruence|]. apply rstrip_by_last.
  unfold is_sp_comma. apply orb_false_iff. split; apply N.eqb_neq; intros ->.
  - apply Forall_app in Hsp as [_ Hsp]. inversion Hsp; subst. discriminate.
  - apply Hc, in_or_app. right. now left.
Qed.

Section RT5.
Context {num : Type} `{NumOps num}.
Variable o : opts num.
Hypothesis Hann : o_annot o = false.
Hypothesis Hd : delim_ok (o_delim o).
Hypothesis Hs : str_law.
Variable g : num -> num.
Hypothesis Hf : fmt_law (o_fmt o) g.
Local Notation dl := (o_delim o).
Local Notation number := (number num).
Local Notation dn := (data_num g).
Local Notation pyv := (pyv num).

Lemma forR_mid {A} off (f f' : A -> pyv) (body : nat -> list pyv -> Res (list pyv)) (vs : list A) P T :
  length P = off ->
  (forall i v a b, nth_error vs i = Some v -> length a = (off + i)%nat -> body i (a ++ f v :: b) = Ok (a ++ f' v :: b)) ->
  forR (seq 0 (length vs)) body (P ++ map f vs ++ T) = Ok (P ++ map f' vs ++ T).
Proof.
  intros HP Hb.
  pose proof (forR_inv body (fun i => P ++ map f' (firstn i vs) ++ map f (skipn i vs) ++ T) (length vs)) as K.
  cbv beta in K. rewrite firstn_O, skipn_O in K. cbn [map app] in K. rewrite K.
  - rewrite firstn_all, skipn_all. reflexivity.
  - intros i Hi. destruct (nth_error vs i) as [v|] eqn:E; [|apply nth_error_None in E; lia].
    rewrite (skipn_nth vs i v E), (firstn_S_nth vs i v E). cbn [map app].
    rewrite (app_assoc P). rewrite (Hb i v); auto.
    + rewrite map_app, <- !app_assoc. reflexivity.
    + rewrite app_length, map_length, HP. f_equal. eapply length_firstn_nth; eauto.
Qed.

(** ** Header *)
Definition caux_lines (r : r2160 num) : list str :=
  [dec_of_Z (Z.of_nat (length (r6_aux r) + length (r6_caux r)))] ++
  [dec_of_Z (Z.of_nat (length (r6_caux r)))] ++
  [num_line o (map v_scal (r6_aux r))] ++ [num_line o (map v_miss (r6_aux r))] ++
  [int_line o (map cv_len (r6_caux r))] ++ map cv_miss (r6_caux r) ++
  (map v_name (r6_aux r) ++ map cv_name (r6_caux r)).
Definition body2160 (r : r2160 num) : list str :=
  common_lines o (r6_common r) ++ [s_of (r6_dx r)] ++ [s_of (r6_lenx r)] ++
  [snd (r6_xname r); fst (r6_xname r)] ++
  var_lines o (r6_vars r) ++ caux_lines r ++ comment_lines (r6_common r).
Lemma all_names_ok r : ok2160 g r -> Forall name_ok (map v_name (r6_aux r) ++ map cv_name (r6_caux r)).
Proof.
  intros (_ & _ & Ha & _ & _ & Hca & _). apply Forall_app. split; apply Forall_map; auto.
  eapply Forall_impl; [|exact Hca]. intros c K. apply K.
Qed.
Lemma cmiss_ok r : ok2160 g r -> Forall token_ok (map cv_miss (r6_caux r)).
Proof.
  intros (_ & _ & Ha & _ & _ & Hca & _). apply Forall_map. eapply Forall_impl; [|exact Hca]. intros c K. apply K.
Qed.
Lemma caux_one_line r : ok2160 g r -> Forall one_line (caux_lines r).
Proof.
  intros Hr. unfold caux_lines. apply Forall_app. split; [auto using dec_one_line|].
  apply Forall_app. split; [auto using dec_one_line|].
  apply Forall_app. split; [constructor; auto; now apply num_line_one_line|].
  apply Forall_app. split; [constructor; auto; now apply num_line_one_line|].
  apply Forall_app. split; [constructor; auto; now apply int_line_one_line|].
  apply Forall_app. split.
  - eapply Forall_impl; [|exact (cmiss_ok r Hr)]. apply token_one_line.
  - apply names_one_line. now apply all_names_ok.
Qed.
Lemma body2160_one_line r : ok2160 g r -> Forall one_line (body2160 r).
Proof.
  intros Hr. pose proof Hr as (Hc & Hv & Ha & _ & _ & _ & Hx1 & Hx2 & _).
  assert (T : forall n, one_line (s_of n)) by (intros n; apply token_one_line, s_of_token, Hs).
  unfold body2160. apply Forall_app. split; [now apply common_one_line|].
  apply Forall_app. split; auto. apply Forall_app. split; auto.
  apply Forall_app. split; [apply names_one_line; auto|].
  apply Forall_app. split; [now apply var_one_line|].
  apply Forall_app. split; [now apply caux_one_line|]. now apply comments_one_line.
Qed.

Lemma emits_caux r (d : na num) : ok2160 g r -> (forall k v, In (k, v)
    [(kNAUXV, PInt (Z.of_nat (length (r6_aux r) + length (r6_caux r)))); (kNAUXC, len_pv (r6_caux r));
   (kASCAL, nums_pv (map v_scal (r6_aux r)));
   (kAMISS, PList (map pv (map v_miss (r6_aux r)) ++ map PStr (map cv_miss (r6_caux r))));
   (kLENA, PList (repeat PNone (length (r6_aux r)) ++ map (fun c => PInt (cv_len c)) (r6_caux r)));
   (kANAME, strs_pv (map v_name (r6_aux r) ++ map cv_name (r6_caux r)))] -> attr d k = v) ->
  emits (writeAuxVariablesHeaderSection_2160 o) d (caux_lines r) d.
Proof.
  intros (_ & _ & _ & Hne & Hce & _) A. unfold writeAuxVariablesHeaderSection_2160, caux_lines.
  set (na := length (r6_aux r)) in *. set (nc := length (r6_caux r)) in *.
  assert (Hna : (0 < na)%nat) by (unfold na; destruct (r6_aux r); [congruence|cbn; lia]).
  assert (Hnc : (0 < nc)%nat) by (unfold nc; destruct (r6_caux r); [congruence|cbn; lia]).
  apply (emits_bind _ _ d [_] d); [apply emits_int_block, A; auto; simpl; tauto|].
  apply (emits_bind _ _ d [_] d); [apply emits_int_block, A; auto; simpl; tauto|].
  intros f h. unfold bindW at 1. rewrite (self_int_ok kNAUXV (Z.of_nat (na + nc))) by (apply A; simpl; tauto).
  destruct (Z.ltb_spec 0 (Z.of_nat (na + nc))) as [_|K]; [|lia].
  unfold bindW at 1. rewrite (self_int_ok kNAUXC (Z.of_nat nc)) by (apply A; simpl; tauto).
  replace (Z.of_nat (na + nc) - Z.of_nat nc)%Z with (Z.of_nat na) by lia.
  revert f h.
  match goal with |- forall f h, ?m (mkW f h d) = (Ok tt, mkW f (h ++ unlines ?L) d) => change (emits m d L d) end.
  apply (emits_bind _ _ d [_] d).
  { intros f h. unfold bindW at 1. rewrite (self_list_ok kASCAL (map pv (map v_scal (r6_aux r)))) by (apply A; simpl; tauto).
    unfold bindW at 1, liftW. rewrite fmt_sep_nums; [now apply hwrap_emits| |lia]. rewrite map_length. fold na. lia. }
  apply (emits_bind _ _ d [_] d).
  { intros f h. unfold bindW at 1. rewrite (self_list_ok kAMISS (map pv (map v_miss (r6_aux r)) ++ map PStr (map cv_miss (r6_caux r)))) by (apply A; simpl; tauto).
    unfold bindW at 1, liftW. rewrite slice_to_nat, firstn_app.
    rewrite firstn_all2 by (rewrite !map_length; fold na; lia).
    replace (na - length (map pv (map v_miss (r6_aux r))))%nat with 0%nat by (rewrite !map_length; fold na; lia).
    rewrite firstn_O, app_nil_r.
    rewrite fmt_sep_nums; [now apply hwrap_emits| |lia]. rewrite map_length. fold na. lia. }
  apply (emits_bind _ _ d [_] d).
  { intros f h. unfold bindW at 1. rewrite (self_list_ok kLENA (repeat PNone na ++ map (fun c => PInt (cv_len c)) (r6_caux r))) by (apply A; simpl; tauto).
    unfold bindW at 1, liftW. rewrite slice_from_nat, skipn_app.
    rewrite skipn_all2 by (rewrite repeat_length; lia). rewrite repeat_length, Nat.sub_diag. cbn [app skipn].
    rewrite <- (map_map cv_len (@PInt num)).
    rewrite fmt_sep_ints; [now apply hwrap_emits| |lia]. rewrite map_length. fold nc. lia. }
  apply (emits_bind _ _ d (map cv_miss (r6_caux r)) d).
  { intros f h. unfold bindW at 1. rewrite (self_list_ok kAMISS (map pv (map v_miss (r6_aux r)) ++ map PStr (map cv_miss (r6_caux r)))) by (apply A; simpl; tauto).
    unfold bindW at 1, liftW. rewrite slice_from_nat, skipn_app.
    rewrite skipn_all2 by (rewrite !map_length; fold na; lia).
    replace (na - length (map pv (map v_miss (r6_aux r))))%nat with 0%nat by (rewrite !map_length; fold na; lia).
    cbn [skipn app]. replace (Z.of_nat nc) with (Z.of_nat (length (map cv_miss (r6_caux r)))) by now rewrite map_length.
    rewrite fmt_lines_strs. now apply hwraps_emits. }
  intros f h. unfold bindW at 1. rewrite (self_list_ok kANAME (map PStr (map v_name (r6_aux r) ++ map cv_name (r6_caux r)))) by (apply A; simpl; tauto).
  unfold bindW at 1, liftW.
  replace (Z.of_nat (na + nc)) with (Z.of_nat (length (map v_name (r6_aux r) ++ map cv_name (r6_caux r)))) by (rewrite app_length, !map_length; reflexivity).
  rewrite fmt_lines_strs. now apply hwraps_emits.
Qed.

Definition mid2160 (r : r2160 num) (d : na num) : na num :=
  upd (upd d kDX (nums_pv [r6_dx r])) kXNAME (strs_pv [snd (r6_xname r); fst (r6_xname r)]).
Lemma write2160 r d nlh f : has d (items2160 r) -> ok2160 g r -> attr d kNLHEAD = PInt nlh ->
  d kIGN = None \/ d kIGN = Some PNone \/ d kIGN = Some (PList []) ->
  writeHeader o C2160 (mkW f [] d) =
  (Ok tt, mkW (f ++ unlines (header o 2160 (body2160 r))) (unlines (header o 2160 (body2160 r))) (mid2160 r d)).
Proof.
  intros Hh Hr Hn Hign. pose proof Hr as (Hc & Hv & Ha & _ & _ & _ & Hx1 & Hx2 & _). pose proof (fun k v => has_attr d _ k v Hh) as A.
  unfold items2160 in Hh. apply has_app in Hh as [Hh1 Hh]. apply has_app in Hh as [Hh2 Hh].
  pose proof (fun k v => has_attr d _ k v Hh) as A1.
  unfold body2160. cbn [writeHeader]. unfold writeHeader_2160.
  assert (Niv : attr d kNIV = PInt 2) by (apply A; simpl; tauto).
  assert (Ign : forall f h, bindW (self kIGN) (fun ign => match ign with
     | PNone | PList [] => retW tt
     | PList l =>
       bindW (liftW (mapR (fun v => match v with PStr s => Ok s | _ => Err ETypeError end) l)) (fun ss =>
       bindW (fwrite (join nl ss)) (fun _ => fwrite nl))
     | _ => liftW (Err EUnmodelled)
     end) (mkW f h d) = (Ok tt, mkW f h d)).
  { intros f' h'. unfold bindW at 1. unfold self, attr. cbn [w_na].
    destruct Hign as [E|[E|E]]; rewrite E; reflexivity. }
  unfold bindW at 1. rewrite Ign. clear Ign.
  set (d1 := upd d kDX (nums_pv [r6_dx r])). set (d2 := mid2160 r d).
  assert (T : forall n, one_line (s_of n)) by (intros n; apply token_one_line, s_of_token, Hs).
  eapply (closes_start o 2160).
  - apply (emits_common o Hann 2160 2); eauto.
  - now apply common_one_line.
  - eapply (closes_step o 2160 _ _ d [] d1); [|constructor|].
    { apply (emits_reverse kDX [pv (r6_dx r)]). apply A1. simpl; tauto. }
    apply (closes_step o 2160 _ _ d1 [_] d1).
    { intros f' h'. unfold bindW at 1. rewrite (self_list_ok kDX [pv (r6_dx r)]) by reflexivity.
      unfold bindW at 1, liftW. unfold fmt_sep. cbn [length Nat.eqb Z.to_nat Nat.add mapR]. rewrite fmt_s_pv.
      cbn [bindR map join]. now apply hwrap_emits. }
    { auto. }
    apply (closes_step o 2160 _ _ d1 [_] d1).
    { intros f' h'. unfold bindW at 1. rewrite (wself_ok kLENX (pv (r6_lenx r))) by (apply A1; simpl; tauto).
      unfold bindW at 1, liftW. rewrite fmt_s_pv. now apply hwrap_emits. }
    { auto. }
    eapply (closes_step o 2160 _ _ d1 [] d2); [|constructor|].
    { apply (emits_reverse kXNAME [PStr (fst (r6_xname r)); PStr (snd (r6_xname r))]).
      change (attr d kXNAME = PList [PStr (fst (r6_xname r)); PStr (snd (r6_xname r))]). apply A1. simpl; tauto. }
    eapply (closes_step o 2160 _ _ d2 [_; _] d2).
    { apply (emits_lines_block o Hann _ kNIV kXNAME 2%Z); try reflexivity. exact Niv. }
    { apply names_one_line. auto. }
    assert (P : forall items, has d items -> ~ In kDX (map fst items) -> ~ In kXNAME (map fst items) -> has d2 items).
    { intros items K1 K2 K3. unfold d2, mid2160. apply has_upd; auto. apply has_upd; auto. }
    apply (closes_step o 2160 _ _ d2 _ d2).
    { apply emits_vars; auto. apply P; auto; simpl; intuition discriminate. } { now apply var_one_line. }
    apply (closes_step o 2160 _ _ d2 _ d2).
    { apply emits_caux; auto. intros k v Hi. change (attr d2 k = v).
      unfold d2, mid2160, attr, upd.
      destruct (key_beq kXNAME k) eqn:K1; [apply key_beq_true in K1; subst k; simpl in Hi; intuition discriminate|].
      destruct (key_beq kDX k) eqn:K2; [apply key_beq_true in K2; subst k; simpl in Hi; intuition discriminate|].
      apply A1. simpl in Hi |- *. tauto. }
    { now apply caux_one_line. }
    rewrite <- (app_nil_r (comment_lines _)).
    apply (closes_step o 2160 _ _ d2 _ d2).
    { apply (emits_comments o Hann 2160 2). apply P; auto; simpl; intuition discriminate. }
    { now apply comments_one_line. }
    apply closes_end; auto. change (attr d kFFI = PInt 2160). apply A; simpl; tauto.
Qed.

Definition upd_caux (r : r2160 num) (d : na num) : na num :=
  let aux := map norm_var (r6_aux r) in
  let d := upd (upd d kNAUXV (PInt (Z.of_nat (length (r6_aux r) + length (r6_caux r))))) kNAUXC (len_pv (r6_caux r)) in
  let d := upd (upd d kASCAL (nums_pv (map v_scal aux))) kAMISS (nums_pv (map v_miss aux)) in
  let d := upd d kLENA (PList (repeat PNone (length (r6_aux r)) ++ map (fun c => PInt (cv_len c)) (r6_caux r))) in
  let d := upd d kAMISS (PList (map pv (map v_miss aux) ++ map PStr (map cv_miss (r6_caux r)))) in
  upd d kANAME (strs_pv (map v_name (r6_aux r) ++ map cv_name (r6_caux r))).
Lemma eats_caux r d : ok2160 g r ->
  eats readCharAuxVariablesHeaderSection d (caux_lines r) (upd_caux r d) tt.
Proof.
  intros Hr. pose proof Hr as (_ & _ & _ & Hne & Hce & _).
  unfold readCharAuxVariablesHeaderSection, caux_lines, upd_caux. cbv zeta.
  rewrite <- !head_scal, <- !head_miss, <- (map_map cv_len (@PInt num)).
  set (na := length (r6_aux r)) in *. set (nc := length (r6_caux r)) in *.
  assert (Hna : (0 < na)%nat) by (unfold na; destruct (r6_aux r); [congruence|cbn; lia]).
  assert (Hnc : (0 < nc)%nat) by (unfold nc; destruct (r6_caux r); [congruence|cbn; lia]).
  assert (Hsub : (Z.of_nat (na + nc) - Z.of_nat nc)%Z = Z.of_nat na) by lia.
  assert (N1 : forall f : var num -> number, map f (r6_aux r) <> []) by (intros f; destruct (r6_aux r); [congruence|discriminate]).
  assert (N2 : forall B (f : cvar -> B), map f (r6_caux r) <> []) by (intros B f; destruct (r6_caux r); [congruence|discriminate]).
  eapply (eats_seq _ _ _ [_]); [apply eats_int_set|].
  eapply (eats_seq _ _ _ [_]); [apply eats_int_set|].
  eapply (eats_bind _ _ _ [] _ (Z.of_nat (na + nc))); [apply eats_get_int; reflexivity|].
  eapply (eats_bind _ _ _ [] _ (Z.of_nat nc)); [apply eats_get_int; reflexivity|].
  destruct (Z.ltb_spec 0 (Z.of_nat (na + nc))) as [_|K]; [|lia]. rewrite !Hsub, Nat2Z.id.
  eapply (eats_seq _ _ _ [_]).
  { apply (eats_set_list _ PList). apply (eats_num_unknown dl Hd Hs o eq_refl); auto. now rewrite map_length. }
  eapply (eats_seq _ _ _ [_]).
  { apply (eats_set_list _ PList). apply (eats_num_unknown dl Hd Hs o eq_refl); auto. now rewrite map_length. }
  eapply (eats_seq _ _ _ [_]).
  { apply (eats_set_list _ (fun l => PList (repeat PNone na ++ l))).
    apply (eats_int_unknown dl Hd o eq_refl); auto. now rewrite map_length. }
  eapply eats_seq.
  { eapply (eats_bind _ _ _ []); [apply eats_get_list; reflexivity|].
    apply (eats_set_list _ (fun l => PList (_ ++ l))).
    eapply (eats_items_unknown_lines dl Hd o eq_refl (map cv_miss (r6_caux r)) _ _ (map PStr (map cv_miss (r6_caux r)))); auto.
    - now apply cmiss_ok.
    - now rewrite map_length.
    - rewrite (mapR_ok _ PStr); auto. }
  apply (eats_set_list _ PList). apply eats_names; [now apply all_names_ok|].
  rewrite app_length, !map_length. reflexivity.
Qed.
Definition read2160 (n : Z) (r : r2160 num) : na num :=
  upd_comments (r6_common r) (upd_caux r (upd_vars (map norm_var (r6_vars r))
    (upd (upd (upd (upd_common n 2160 (r6_common r) na_new)
      kDX (nums_pv [head_num (r6_dx r)])) kLENX (pv (head_num (r6_lenx r))))
      kXNAME (strs_pv [fst (r6_xname r); snd (r6_xname r)])))).
Lemma eats2160 r : ok2160 g r ->
  eats (readHeader C2160 0) na_new (header o 2160 (body2160 r)) (read2160 (Z.of_nat (S (length (body2160 r)))) r) tt.
Proof.
  intros Hr. pose proof Hr as (Hc & Hv & Ha & _ & _ & _ & Hx1 & Hx2 & _). unfold header. set (n := Z.of_nat _). clearbody n.
  unfold body2160, read2160. cbn [readHeader]. unfold readHeader_2160.
  rewrite app_comm_cons.
  eapply (eats_seq _ _ _ (_ :: common_lines o _)); [eapply (eats_common dl); auto|].
  eapply (eats_bind _ _ _ [] _ 2%Z); [apply eats_get_int; reflexivity|].
  eapply (eats_seq _ _ _ [_]).
  { apply (eats_set_list _ PList). apply (eats_num_line dl Hd Hs o eq_refl [r6_dx r]); [discriminate|reflexivity]. }
  eapply (eats_seq _ _ _ [_]).
  { apply (eats_set_list _ (fun v => v)). apply eats_item_line. apply token_item; [now apply s_of_token|now apply s_of_conv]. }
  eapply (eats_seq _ _ _ [_; _]).
  { apply (eats_set_list _ (fun l => PList (rev l))). apply eats_names; [|reflexivity]. auto. }
  eapply (eats_seq _ _ _ (var_lines o _)); [eapply (eats_vars dl); auto|].
  eapply (eats_seq _ _ _ (caux_lines _)); [now apply eats_caux|].
  apply eats_comments.
Qed.

(** ** Data *)
Definition cline (s : str) : str := rstrip_sc (s ++ dl).
Definition ccol (m : nat) (cs : list (list str)) : list str := map (fun c => nth m c []) cs.
Definition cpre (m : nat) (cs : list (list str)) : list pyv := map (fun c => strs_pv (firstn m c)) cs.

Lemma toks_token w : token_ok w -> toks (w ++ nl) = [w].
Proof. intros Hw. apply (toks_join dl [w]); auto using blank_nl. Qed.
Lemma word_solid w : word w -> one_line w -> solid w.
Proof.
  intros [Hne Hw] Ho. split; auto. destruct w as [|c w]; [congruence|].
  apply Forall_inv in Hw. unfold all_sp. cbn [forallb]. now rewrite Hw.
Qed.
Lemma cline_item s : char_ok s -> readItemFromLine (num:=num) (right_strip_braces (cline s ++ nl)) TStr = Ok (PStr s).
Proof.
  intros Hs'. destruct (char_line s dl Hs' Hd) as (b & Hb & _ & E). unfold cline. rewrite E.
  apply char_item; auto. apply Hs'.
Qed.
Lemma cline_solid s : char_ok s -> solid (cline s).
Proof.
  intros Hs'. destruct (char_line s dl Hs' Hd) as (b & _ & Ho & E). unfold cline. rewrite E. split; auto.
  destruct Hs' as (((_ & Ht & _) & _) & Hne & _). destruct s as [|c t]; [congruence|].
  cbn [app]. unfold all_sp. cbn [forallb]. now rewrite (Ht c t eq_refl).
Qed.
Lemma clines_items l : Forall char_ok l -> readItemsFromLines (num:=num) (nls (map cline l)) = Ok (map PStr l).
Proof.
  intros Hl. unfold readItemsFromLines. apply mapR_forall2. unfold nls. rewrite map_map.
  induction Hl; constructor; auto. now apply cline_item.
Qed.
Lemma ccol_ok m cs n : Forall (fun a : list str => length a = n /\ Forall char_ok a) cs -> (m < n)%nat ->
  Forall char_ok (ccol m cs).
Proof.
  intros Hc Hm. apply Forall_map. eapply Forall_impl; [|exact Hc]. intros c [<- Hf'].
  rewrite Forall_forall in Hf'. now apply Hf', nth_In.
Qed.

Lemma readData1_2160_ok h m rest (x : str) X V n0 as_ cas NX DX M :
  attr h kNAUXV = PInt (Z.of_nat (length as_ + length cas)) -> attr h kNAUXC = PInt (Z.of_nat (length cas)) ->
  token_ok x -> as_ <> [] -> (m < M)%nat -> Forall (fun c => length c = M) as_ ->
  Forall (fun a => length a = M /\ Forall char_ok a) cas ->
  num_trunc (g (val (at_ m (nth 0 as_ [])))) = Some (Z.of_nat n0) ->
  readData1_2160 h (nls ([x] ++ [row o (col m as_)] ++ map cline (ccol m cas)) ++ rest) m
    (mkD X V (pre m (map (map dn) as_) ++ cpre m cas) NX DX) =
  Ok (mkD (X ++ [PList [PStr x; PList []]]) V (pre (S m) (map (map dn) as_) ++ cpre (S m) cas)
     (NX ++ [PInt (Z.of_nat n0)]) DX, rest).
Proof.
  intros En Ec Hx Hne Hm Ha Hca Hcnt. unfold readData1_2160, h_int. rewrite En, Ec. cbn [as_int bindR].
  assert (Hl : Forall (fun c => m < length c)%nat as_) by now apply (lens_lt m M).
  replace (Z.of_nat (length as_ + length cas) - Z.of_nat (length cas))%Z with (Z.of_nat (length as_)) by lia.
  rewrite nls_app, <- app_assoc. unfold items_from at 1.
  rewrite (readUnknown_exact (num:=num) EIndexError 1 TStr (nls [x]) _ [x]); try reflexivity; try discriminate.
  2:{ cbn [nls map last]. now rewrite toks_token. }
  2:{ cbn [nls map concat]. now rewrite toks_token. }
  cbn [mapR conv bindR]. unfold nth_res at 1. cbn [nth_error of_opt bindR].
  rewrite nls_app, <- app_assoc. rewrite (items_row o Hd g Hf).
  2:{ destruct as_; [congruence|discriminate]. }
  2:{ unfold col. now rewrite map_length. }
  cbn [bindR].
  replace (nth_res (map pv (map dn (col m as_))) 0) with (Ok (pv (dn (at_ m (nth 0 as_ []))))) by (destruct as_; [congruence|reflexivity]).
  cbn [bindR]. rewrite int_of_dn, Hcnt. cbn [bindR d_A].
  rewrite <- col_map by auto.
  assert (E1 : append_each (Z.of_nat (length as_)) (map pv (col m (map (map dn) as_))) (pre m (map (map dn) as_) ++ cpre m cas) =
    Ok (pre (S m) (map (map dn) as_) ++ cpre m cas)).
  { unfold append_each, range. rewrite Nat2Z.id. rewrite <- (map_length (map dn) as_).
    apply (forR_mid 0 (fun c => nums_pv (firstn m c)) (fun c => nums_pv (firstn (S m) c)) _ (map (map dn) as_) [] (cpre m cas)); auto.
    intros i v a b Ev Hal. cbn [Nat.add] in Hal. unfold col. rewrite (nth_res_map pv _ i (at_ m v)) by now rewrite nth_error_map, Ev.
    cbn [bindR]. rewrite <- Hal, modify_nth_app. unfold nums_pv at 1. cbn [app_item bindR].
    rewrite firstn_at.
    - unfold nums_pv. now rewrite map_app.
    - apply (lens_map g) in Hl. rewrite Forall_forall in Hl. apply Hl. eapply nth_error_In; eauto. }
  rewrite E1. cbn [bindR].
  rewrite slice_to_nat, slice_from_nat.
  assert (Lc : length cas = length (nls (map cline (ccol m cas)))) by (unfold nls, ccol; now rewrite !map_length).
  rewrite Lc at 1. rewrite firstn_app, firstn_all, Nat.sub_diag, firstn_O, app_nil_r.
  rewrite clines_items by now apply (ccol_ok m cas M). cbn [bindR].
  assert (E3 : skipn (length cas) (nls (map cline (ccol m cas)) ++ rest) = rest) by (rewrite Lc; apply skipn_app_len).
  rewrite E3.
  match goal with |- bindR ?L _ = _ => assert (E2 : L = Ok (pre (S m) (map (map dn) as_) ++ cpre (S m) cas)) end.
  { unfold range. rewrite Nat2Z.id.
    pose proof (fun body => forR_mid (length as_) (fun c => strs_pv (firstn m c)) (fun c => strs_pv (firstn (S m) c)) body cas
      (pre (S m) (map (map dn) as_)) []) as K.
    rewrite !app_nil_r in K. apply K.
    - unfold pre. now rewrite !map_length.
    - intros i v a b Ev Hal. rewrite (nth_res_map PStr _ i (nth m v [])) by (exact (map_nth_error (fun c => nth m c []) i cas Ev)).
      cbn [bindR]. destruct (Z.ltb_spec (Z.of_nat (length as_) + Z.of_nat i) 0) as [K1|_]; [lia|].
      rewrite Nat2Z.id, <- Hal, modify_nth_app. unfold strs_pv at 1. cbn [app_item bindR].
      rewrite Forall_forall in Hca. destruct (Hca v) as [L1 _]; [eapply nth_error_In; eauto|].
      rewrite (firstn_snoc_nth v m []) by lia. unfold strs_pv. now rewrite map_app. }
  rewrite E2. reflexivity.
Qed.

Definition lines2160 (r : r2160 num) : list str :=
  header o 2160 (body2160 r) ++ concat (map (fun m => ([nth m (map m_x (r6_x r)) []] ++ [row o (col m (r6_a r))] ++ map cline (ccol m (r6_ca r))) ++
    map (row o) (inner m (nth m (map m_in (r6_x r)) []) (r6_v r))) (seq 0 (length (r6_x r)))).
Theorem rt2160_as r d nlh : ok2160 g r -> has d (items2160 r) -> attr d kNLHEAD = PInt nlh ->
  d kIGN = None \/ d kIGN = Some PNone \/ d kIGN = Some (PList []) ->
  comes_back_as o C2160 d (items2160 (norm2160 g r)) (lines2160 r).
Proof.
  intros Hr Hh Hn Hign. pose proof (fun k v => has_attr d _ k v Hh) as A.
  pose proof Hr as (Hc & Hv & Ha & Hane & Hcne & Hcv & Hx1 & Hx2 & Hxt & Hl1 & Hlc & Hl2 & Hl3 & Hl4 & Hcnt & Hinn).
  set (M := length (r6_x r)) in *. set (n := Z.of_nat (S (length (body2160 r)))).
  set (ins := map m_in (r6_x r)).
  assert (Hla : forall m, (m < M)%nat -> Forall (fun c => m < length c)%nat (r6_a r)) by (intros m; now apply lens_lt).
  assert (Hlv : forall m, (m < M)%nat -> Forall (fun v => m < length v /\ length (nth m v []) = length (nth m ins []))%nat (r6_v r)).
  { intros m Hm. eapply Forall_impl; [|exact Hinn]. intros v Hi. now apply inner_lens. }
  assert (Hae : r6_a r <> []) by (intros K; rewrite K in Hl1; now destruct (r6_aux r)).
  set (dr := read2160 n r). set (xs' := map (fun m => mkMark (m_x m) (map dn (m_in m))) (r6_x r)).
  assert (Nv : attr dr kNV = PInt (Z.of_nat (length (r6_v r)))).
  { apply (attr_len dr kNV (map norm_var (r6_vars r))); [reflexivity|now rewrite map_length]. }
  assert (Na : attr dr kNAUXV = PInt (Z.of_nat (length (r6_a r) + length (r6_ca r)))).
  { rewrite Hl1, Hlc. reflexivity. }
  assert (Nc : attr dr kNAUXC = PInt (Z.of_nat (length (r6_ca r)))).
  { rewrite Hlc. reflexivity. }
  assert (ND : attr dr kDX = PList [pv (head_num (r6_dx r))]) by reflexivity.
  apply (comes_back_intro o Hd C2160 d 2160 (body2160 r) (mid2160 r d) (mid2160 r d) dr _
    (fun m => ([nth m (map m_x (r6_x r)) []] ++ [row o (col m (r6_a r))] ++ map cline (ccol m (r6_ca r))) ++
       map (row o) (inner m (nth m ins []) (r6_v r)))
    (fun m => mkD (map (mark_pv PStr) (firstn m xs')) (vst3 m (map (map (map dn)) (r6_v r)))
       (pre m (map (map dn) (r6_a r)) ++ cpre m (r6_ca r))
       (map (fun k => len_pv (m_in k)) (firstn m xs')) [pv (head_num (r6_dx r))]) M).
  - intros f. eapply write2160; eauto.
  - match goal with |- forall f h, _ = (Ok tt, mkW (f ++ unlines ?L) h ?d1) => change (emitd (writeData o C2160) d1 L) end.
    set (d2 := mid2160 r d).
    assert (A3 : forall k, k <> kDX -> k <> kXNAME -> attr d2 k = attr d k).
    { intros k K1 K2. destruct k; try reflexivity; congruence. }
    clearbody d2.
    assert (A1 : forall k v, In (k, v) [(kX, PList (map (mark_pv PStr) (r6_x r))); (kNX, PList (map (fun m => len_pv (m_in m)) (r6_x r)));
      (kA, PList (map nums_pv (r6_a r) ++ map strs_pv (r6_ca r)));
      (kV, PList (map (fun v => PList (map nums_pv v)) (r6_v r)));
      (kNAUXV, PInt (Z.of_nat (length (r6_aux r) + length (r6_caux r)))); (kNAUXC, len_pv (r6_caux r));
      (kNV, PInt (Z.of_nat (length (r6_vars r))))] -> attr d2 k = v).
    { intros k v Hi. rewrite A3; [|intros ->; simpl in Hi; intuition discriminate|intros ->; simpl in Hi; intuition discriminate].
      apply A. unfold items2160. rewrite !in_app_iff. simpl in Hi |- *. tauto. }
    cbn [writeData]. unfold writeData_2160.
    eapply emitd_self; [apply A1; simpl; tauto|].
    eapply (emitd_lift (range_len _)); [reflexivity|]. rewrite map_length. fold M.
    apply emitd_for. intros m Hm. apply in_seq in Hm.
    destruct (nth_error (r6_x r) m) as [x|] eqn:Ex; [|apply nth_error_None in Ex; fold M in Ex; lia].
    assert (Em : nth m (map m_x (r6_x r)) [] = m_x x) by (apply nth_error_nth; now rewrite nth_error_map, Ex).
    assert (Tx : token_ok (m_x x)) by (rewrite Forall_forall in Hxt; eapply Hxt, nth_error_In; eauto).
    rewrite Em. eapply (emitd_lift _ (m_x x)).
    { unfold index2. rewrite (index_map (mark_pv PStr) (r6_x r) m x Ex). reflexivity. }
    rewrite <- !app_assoc.
    apply (emitd_bind _ _ d2 [_] _).
    { intros f h. unfold write_data_line, bindW, wrapLine, liftW. rewrite wrap_plain by auto.
      unfold fwrite. cbn [w_file w_head w_na]. rewrite unlines_one. now rewrite token_rstrip. }
    eapply emitd_self_int; [apply A1; simpl; tauto|]. eapply emitd_self_int; [apply A1; simpl; tauto|].
    eapply emitd_self; [apply A1; simpl; tauto|].
    replace (Z.of_nat (length (r6_aux r) + length (r6_caux r)) - Z.of_nat (length (r6_caux r)))%Z with (Z.of_nat (length (r6_a r))) by lia.
    eapply emitd_lift.
    { unfold range. rewrite Nat2Z.id. apply (cat_items_ok o _ _ (fun n => at_ m (nth n (r6_a r) []))).
      intros a Hi. apply in_seq in Hi. unfold index2, index, nth_res. cbn [as_list bindR].
      rewrite nth_error_app1 by (rewrite map_length; lia). 
      fold (nth_res (map nums_pv (r6_a r)) a). rewrite (nth_res_map nums_pv _ a (nth a (r6_a r) [])) by (apply nth_error_nth'; lia).
      cbn [bindR]. apply index_nums. specialize (Hla m ltac:(lia)). rewrite Forall_forall in Hla. apply Hla, nth_In. lia. }
    rewrite col_seq.
    apply (emitd_bind _ _ d2 [_] _); [now apply emitd_line|].
    apply (emitd_bind _ _ d2 (map cline (ccol m (r6_ca r))) _).
    { unfold range. rewrite Nat2Z.id. rewrite <- Hlc.
      replace (map cline (ccol m (r6_ca r))) with (concat (map (fun a => [cline (nth m (nth a (r6_ca r) []) [])]) (seq 0 (length (r6_ca r))))).
      2:{ unfold ccol. rewrite map_map. generalize (r6_ca r) as cs. induction cs as [|c cs IH]; [reflexivity|].
          cbn [length seq map concat app nth]. f_equal. rewrite <- seq_shift, map_map. exact IH. }
      apply emitd_for. intros a Hi. apply in_seq in Hi.
      eapply (emitd_lift _ (nth m (nth a (r6_ca r) []) [])).
      { unfold index2, index, nth_res. rewrite Nat2Z.id. cbn [as_list bindR].
        rewrite nth_error_app2 by (rewrite map_length; lia). rewrite map_length.
        replace (length (r6_a r) + a - length (r6_a r))%nat with a by lia.
        rewrite (map_nth_error strs_pv a (r6_ca r) (nth_error_nth' (r6_ca r) [] (proj2 Hi))).
        cbn [option_map of_opt bindR strs_pv as_list].
        rewrite Forall_forall in Hl4. destruct (Hl4 (nth a (r6_ca r) [])) as [L1 _]; [apply nth_In; lia|].
        rewrite (map_nth_error PStr m _ (nth_error_nth' (nth a (r6_ca r) []) [] (eq_ind_r (fun n => (m < n)%nat) (proj2 Hm) L1))). reflexivity. }
      intros f h. unfold write_data_line, bindW, wrapLine, liftW. rewrite wrap_plain by auto.
      unfold fwrite. cbn [w_file w_head w_na]. rewrite unlines_one. reflexivity. }
    apply emitd_inner; auto; try (rewrite ?Hl2; apply A1; simpl; tauto). fold M. lia.
  - now apply body2160_one_line.
  - reflexivity.
  - now apply eats2160.
  - reflexivity.
  - cbn [setupArrays]. unfold setup_2110, h_int, h_list. rewrite Nv, Na, ND. cbn [as_int as_list bindR]. do 2 f_equal.
    + unfold empties. rewrite Nat2Z.id, vst3_O. now rewrite map_length.
    + unfold empties. rewrite Nat2Z.id, pre_O, map_length, repeat_app. f_equal. unfold cpre.
      generalize (r6_ca r) as cs. induction cs as [|c cs IH]; [reflexivity|]. cbn [length repeat map]. f_equal. exact IH.
  - intros m Hm. split; [discriminate|].
    apply Forall_app. split; [|apply Forall_map; unfold inner; apply Forall_map, Forall_forall; intros p _; eapply row_solid; eauto; discriminate].
    constructor.
    { destruct (nth_error (r6_x r) m) as [x|] eqn:Ex; [|apply nth_error_None in Ex; fold M in Ex; lia].
      rewrite (nth_error_nth (map m_x (r6_x r)) m [] (x:=m_x x)) by now rewrite nth_error_map, Ex.
      assert (Tx : token_ok (m_x x)) by (rewrite Forall_forall in Hxt; eapply Hxt, nth_error_In; eauto).
      apply word_solid; [apply Tx|now apply token_one_line]. }
    constructor.
    { eapply row_solid; eauto. unfold col. destruct (r6_a r); [congruence|discriminate]. }
    cbn [app]. apply Forall_map. eapply Forall_impl; [|apply (ccol_ok m (r6_ca r) M); auto]. apply cline_solid.
  - intros m rest Hm.
    destruct (nth_error (r6_x r) m) as [x|] eqn:Ex; [|apply nth_error_None in Ex; fold M in Ex; lia].
    assert (Ei : nth m ins [] = m_in x) by (apply nth_error_nth; unfold ins; now rewrite nth_error_map, Ex).
    assert (Ex' : nth_error xs' m = Some (mkMark (m_x x) (map dn (m_in x)))) by (unfold xs'; now rewrite nth_error_map, Ex).
    assert (Em : nth m (map m_x (r6_x r)) [] = m_x x) by (apply nth_error_nth; now rewrite nth_error_map, Ex).
    assert (Tx : token_ok (m_x x)) by (rewrite Forall_forall in Hxt; eapply Hxt, nth_error_In; eauto).
    rewrite Em, Ei.
    do 2 eexists. cbn [readData1 readData2]. split.
    { rewrite nls_app, <- app_assoc. apply (readData1_2160_ok dr m _ _ _ _ (length (m_in x)) _ _ _ _ M); auto.
      rewrite <- Ei. now apply counts_at. }
    change (PInt (Z.of_nat (length (m_in x)))) with (@len_pv num _ (m_in x)).
    rewrite readData2_2110_ok; auto.
    + rewrite !(firstn_marks xs' _ m _ Ex').
      replace (len_pv (m_in (mkMark (m_x x) (map dn (m_in x))))) with (@len_pv num _ (m_in x)); [reflexivity|].
      unfold len_pv. cbn [m_in]. now rewrite map_length.
    + rewrite map_length. eapply length_firstn_nth; eauto.
    + rewrite map_length. eapply length_firstn_nth; eauto.
    + rewrite <- Ei. now apply Hlv.
  - cbn [store d_X d_V d_A d_NX]. unfold M in *. rewrite !full_cols by auto.
    rewrite !firstn_all2 by (unfold xs'; now rewrite map_length).
    rewrite vst3_all.
    2:{ apply Forall_map. eapply Forall_impl; [|exact Hinn]. intros v K. rewrite map_length. now apply inner_length. }
    replace (cpre (length (r6_x r)) (r6_ca r)) with (map (strs_pv (num:=num)) (r6_ca r)).
    2:{ unfold cpre. apply map_ext_in. intros c Hi. rewrite Forall_forall in Hl4. destruct (Hl4 c Hi) as [<- _]. now rewrite firstn_all. }
    intros k. unfold dr, read2160, upd_caux, items2160.
    cbn [r6_common r6_vars r6_aux r6_caux norm2160 r6_dx r6_lenx r6_xname r6_x r6_a r6_ca r6_v fst snd]. fold xs'. cbv zeta.
    rewrite !map_length, <- (head_name (r6_aux r)).
    destruct k; reflexivity.
Qed.
Theorem rt2160 r d nlh : ok2160 g r -> has d (items2160 r) -> attr d kNLHEAD = PInt nlh ->
  d kIGN = None \/ d kIGN = Some PNone \/ d kIGN = Some (PList []) ->
  comes_back o C2160 d (items2160 (norm2160 g r)).
Proof. intros. eapply comes_back_of, rt2160_as; eauto. Qed.
End RT5.
