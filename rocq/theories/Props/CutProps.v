(** Property C149: a file cut short. *)
From Coq Require Import List NArith ZArith Bool Lia.
From Verif Require Import Py.Str Py.Res Py.Num Model.Dict Model.TextParser Model.CommonUtils
  Model.NARead Spec.TextSpec Spec.ReadSpec Spec.CutSpec Spec.WholeNum Proofs.ReadData Proofs.ReadTwice Proofs.CutData Proofs.CutHeader Props.ReadProps Props.RewriteProps.
Import ListNotations.

Section C149.
Context {num : Type} `{NumOps num}.
Local Notation pyv := (pyv num).

Lemma first_stored (h : na num) c s1 s : grown c s1 s -> first_marks c (store h c s1) (store h c s).
Proof.
  intros [GV GA GX GN GD].
  assert (U : forall ks (g g' : na num) k v v', In k ks -> (forall k, ~ In k ks -> g k = g' k) -> forall k', ~ In k' ks -> upd g k v k' = upd g' k v' k').
  { intros ks g g' k v v' Hi Hg k' Hk. unfold upd. destruct (key_beq k k') eqn:Ek; [|now apply Hg].
    exfalso. apply Hk. replace k' with k; [exact Hi|]. destruct k, k'; try discriminate Ek; reflexivity. }
  assert (L : forall l l' : list pyv, later l l' -> goes_on (PList l) (PList l')) by (intros l l' [q ->]; right; eauto).
  split; [destruct c; cbn; unfold all_go_on; eauto|].
  destruct c; cbn [store grid] in *; repeat split; try (apply L; assumption); try (eexists _, _; repeat split; exact GA);
    try (repeat (apply U; [cbn; tauto|]); intros; reflexivity).
  all: destruct GX as [GX | (t & t' & b & E1 & E2 & Hg)]; [left; cbn; now rewrite GX|right; exists t, t', b; cbn; rewrite E1, E2; auto].
Qed.

(** FOR EVERY header [h] with a length NLHEAD >= 0 AND EVERY text cut into whole
    lines [a] and a rest [b]: when both the whole and the part can be read, the
    part gives the first marks of the whole. *)
Theorem C149_data : forall (h : na num) c a b d d', whole_lines a ->
  (forall n, attr h kNLHEAD = PInt n -> (0 <= n)%Z) ->
  readData h c a = Ok d -> readData h c (a ++ b) = Ok d' -> first_marks c d d'.
Proof.
  intros h c a b d d' Hw Hn E E'. pose proof E as Ea.
  destruct (readData_split _ _ _ _ E) as (s0 & nlh & ls & s1 & Es & En & Eb & El & ->).
  destruct (readData_split _ _ _ _ E') as (s0' & nlh' & ls' & s & Es' & En' & Eb' & El' & ->).
  rewrite Es in Es'. injection Es' as <-. rewrite En in En'. injection En' as <-.
  specialize (Hn nlh En). rewrite (readlines_cut _ _ Hw) in Eb'.
  assert (Sl : exists more, slice_from (readlines a ++ readlines b) nlh = slice_from (readlines a) nlh ++ more).
  { unfold slice_from. destruct (Z.ltb_spec nlh 0); [lia|]. rewrite skipn_app. eauto. }
  destruct Sl as [more Sl]. rewrite Sl in Eb'. destruct (check_app _ _ _ _ Eb Eb') as [z ->].
  assert (HI : aux_len h c s0 /\ marks c (d_X s0) 0 s0).
  { split.
    - intros -> na Ena. cbn in Es. unfold setup_2110 in Es. inv_bind Es. rewrite Ena in Es. cbn [bindR] in Es. inv_bind Es. injection Es as <-.
      cbn. apply empties_cols.
    - split; intros Hc; [|now left]. destruct c; try discriminate Hc; cbn in Es; unfold setup_2110 in Es; repeat inv_bind Es; injection Es as <-; reflexivity. }
  destruct (loop_split h c (fun m s => aux_len h c s /\ marks c (d_X s0) m s)) with (4 := El) (3 := HI) as (M & [_ HM] & HG).
  - intros; tauto.
  - intros l m t t1 l1 t2 l2 [A1 A2] E1 E2. split; [eapply set_aux_len; eauto|eapply set_marks; eauto].
  - specialize (HG _ z s (le_n _) El'). apply first_stored. eapply (grown_loop h c s1); [| |apply grown_refl|exact HG].
    + intros Ho. rewrite (proj1 HM Ho). lia.
    + intros Ho. assert (Hc : own c = true \/ grid c = true) by (destruct (own c); auto). clear Ho. destruct Hc as [Hc|Hc].
      * destruct (C25_own_sizes h c a (store h c s1)) as (nv & nauxv & nx & xs & vs & A & _ & _ & _ & Hx & HX & HV & _ & Hr & _);
          [destruct c; try discriminate Hc; cbn; tauto|exact Ea|].
        assert (attr (store h c s1) kX = PList (d_X s1)) as Ex by (destruct c; reflexivity).
        assert (attr (store h c s1) kV = PList (d_V s1)) as Ev by (destruct c; reflexivity).
        rewrite Ex in Hx. injection Hx as <-. rewrite Ev in HV. injection HV as <-. apply Forall2_len in HX. rewrite (proj1 HM Hc) in HX.
        eapply Forall_impl; [|exact Hr]. intros v (l & -> & Hl) p [= <-]. apply Forall2_len in Hl. lia.
      * destruct (C25_blocks h c a (store h c s1)) as (nv & nauxv & nx & vs & mk & _ & _ & _ & HV & _ & Hr & _ & HX);
          [destruct c; try discriminate Hc; cbn; tauto|exact Ea|].
        assert (attr (store h c s1) kX = PList (d_X s1)) as Ex by (destruct c; reflexivity).
        assert (attr (store h c s1) kV = PList (d_V s1)) as Ev by (destruct c; reflexivity).
        rewrite Ev in HV. injection HV as <-. rewrite Ex in HX.
        assert (X0 : attr h kX = PList (d_X s0)).
        { assert (Es' : setup_2010 h = Ok s0) by (destruct c; try discriminate Hc; exact Es). unfold setup_2010 in Es'. repeat inv_bind Es'. injection Es' as <-.
          cbn. unfold h_mut in *. destruct (attr h kX); congruence. }
        assert (mk <= M)%nat.
        { destruct HX as [[-> _] | (p & q & xr & Hp & Hq & <- & _)]; [lia|]. rewrite X0 in Hp. injection Hp as Hp. injection Hq as Hq.
          destruct (proj2 HM Hc) as [[-> Hz] | (p' & q' & xr' & Hp' & Hq' & <-)].
          - rewrite Hz, Hp in Hq. injection Hq as Hq. apply (f_equal (@length _)) in Hq. rewrite app_length in Hq. lia.
          - rewrite Hp' in Hp. injection Hp as -> _. rewrite Hq' in Hq. injection Hq as Hq _. apply app_inv_head in Hq as ->. lia. }
        eapply Forall_impl; [|exact Hr]. intros v (l & -> & Hl & _) p [= <-]. lia.
Qed.

(** The same for the file, opened and read: the cut leaves the header as it
    was.  What is missing to the property: cuts inside a line or inside the
    header, and headers whose first number is negative. *)
Theorem C149_file_partial : forall a b ignore c c' (d d' : na num), whole_lines a ->
  openNAFile_r (num:=num) a ignore = openNAFile_r (a ++ b) ignore ->
  (forall n, attr d' kNLHEAD = PInt n -> (0 <= n)%Z) ->
  read_file a ignore = Ok (c, d) -> read_file (a ++ b) ignore = Ok (c', d') -> c = c' /\ first_marks c d d'.
Proof.
  intros a b ignore c c' d d' Hw Eo Hn E E'. unfold read_file in E, E'. rewrite <- Eo in E'.
  inv_bind E. destruct a0 as [c0 h]. cbn [bindR fst snd] in E, E'. inv_bind E. inv_bind E'. injection E as <- <-. injection E' as <- <-.
  split; [reflexivity|]. eapply C149_data; [exact Hw| |exact K0|exact K1].
  intros n Ha. apply Hn. destruct (readData_split _ _ _ _ K1) as (s0 & nlh & ls & s & _ & _ & _ & _ & ->). destruct c0; exact Ha.
Qed.

(** A cut leaves the header as it was when a line is left behind the lines the
    header reader takes from the part. *)
Theorem C149_header : forall a b ignore c u (st : rst num), whole_lines a ->
  openNAFile_r (num:=num) a ignore = Ok (c, r_na st) ->
  readHeader c ignore (mkR (readlines a) na_new) = Ok (u, st) -> r_lines st <> [] ->
  openNAFile_r a ignore = openNAFile_r (a ++ b) ignore.
Proof. intros a b ignore c u st Hw E Er Hne. rewrite E. symmetry. eapply opened_longer; eauto. Qed.
End C149.
Print Assumptions C149_data.
Print Assumptions C149_file_partial.
Print Assumptions C149_header.

(** Two marks, the second on two lines.  Cut behind the first mark, the file is
    read as a file of one mark; cut inside the second mark, it is refused. *)
Definition cut_at (n : nat) (s : str) : str := concat (firstn n (readlines s)).
Definition cut_off (n : nat) (s : str) : str := concat (skipn n (readlines s)).
Lemma cut_whole L n : whole_lines (concat (firstn n (map (fun l => l ++ nl) L))).
Proof.
  rewrite firstn_map. generalize (firstn n L). clear. intros L. destruct L as [|l L _] using rev_ind; [now left|]. right.
  rewrite map_app, concat_app. cbn [map concat]. rewrite app_nil_r, app_assoc. eauto.
Qed.
Example C149_example : cut_at 19 typed_1001 ++ cut_off 19 typed_1001 = typed_1001 /\ whole_lines (cut_at 19 typed_1001) /\
  exists d d', read_file (num:=whole) (cut_at 19 typed_1001) 0 = Ok (C1001, d) /\ read_file typed_1001 0 = Ok (C1001, d') /\
    openNAFile_r (num:=whole) (cut_at 19 typed_1001) 0 = openNAFile_r typed_1001 0 /\
    (exists st, readHeader C1001 0 (mkR (readlines (cut_at 19 typed_1001)) na_new) = Ok (tt, st) /\ r_lines (num:=whole) st <> []) /\
    (exists x, attr d kX = PList [x] /\ exists y, attr d' kX = PList [x; y]) /\ first_marks C1001 d d' /\
    exists e, read_file (num:=whole) (cut_at 20 typed_1001) 0 = Err e.
Proof.
  assert (Ec : cut_at 19 typed_1001 ++ cut_off 19 typed_1001 = typed_1001) by (vm_compute; reflexivity).
  assert (Hw : whole_lines (cut_at 19 typed_1001)).
  { replace (cut_at 19 typed_1001) with (unlines (map lit ["18 1001"; "  Jones, A.   {author}"; "Org"; "Src"; "Mission"; "1 1"; "1999 01 01    2000 2 2"; "0"; "height (m)"; "2"; "1"; "10"; "-9 -99";
      "temp (K)"; "ozone"; "0"; "1"; "remark  "; "0   280 1"]%pylit)) by (vm_compute; reflexivity).
    unfold unlines. match goal with |- whole_lines (concat (map ?f ?L)) => rewrite <- (firstn_all (map f L)); apply cut_whole end. }
  split; [exact Ec|]. split; [exact Hw|]. exists (dict_or (read_file (cut_at 19 typed_1001) 0)), (dict_or (read_file typed_1001 0)).
  assert (E1 : read_file (cut_at 19 typed_1001) 0 = Ok (C1001, dict_or (read_file (cut_at 19 typed_1001) 0))) by (vm_compute; reflexivity).
  assert (E2 : read_file typed_1001 0 = Ok (C1001, dict_or (read_file typed_1001 0))) by (vm_compute; reflexivity).
  assert (E3 : openNAFile_r (num:=whole) (cut_at 19 typed_1001) 0 = openNAFile_r typed_1001 0) by (vm_compute; reflexivity).
  split; [exact E1|]. split; [exact E2|]. split; [exact E3|]. split; [eexists; split; [vm_compute; reflexivity|discriminate]|].
  split; [eexists; split; [vm_compute; reflexivity|]; eexists; vm_compute; reflexivity|]. split; [|eexists; vm_compute; reflexivity].
  rewrite <- Ec in E2, E3 at 1. refine (proj2 (C149_file_partial _ _ _ _ _ _ _ Hw E3 _ E1 E2)).
  intros n Hn. vm_compute in Hn. injection Hn as <-. discriminate.
Qed.

(** FFI 2010 with one of its two marks, FFI 2160 with one of its two sites. *)
Definition less (x : str) : str := firstn (length x - 1) x.
Example C149_grids : Forall (fun t => let '(c, content, n) := t in exists d d',
    whole_lines (cut_at n content) /\ read_file (num:=whole) (cut_at n content) 0 = Ok (c, d) /\ read_file content 0 = Ok (c, d') /\
    attr d kX <> attr d' kX /\ attr d kV <> PList [PList []] /\ first_marks c d d') [(C2010, typed_2010, 22%nat); (C2160, typed_2160, 31%nat)].
Proof.
  repeat constructor.
  - exists (dict_or (read_file (cut_at 22 typed_2010) 0)), (dict_or (read_file typed_2010 0)).
    assert (Hw : whole_lines (cut_at 22 typed_2010)) by (right; exists (less (cut_at 22 typed_2010)); vm_compute; reflexivity).
    assert (E1 : read_file (cut_at 22 typed_2010) 0 = Ok (C2010, dict_or (read_file (cut_at 22 typed_2010) 0))) by (vm_compute; reflexivity).
    assert (E2 : read_file (cut_at 22 typed_2010 ++ cut_off 22 typed_2010) 0 = Ok (C2010, dict_or (read_file typed_2010 0))) by (vm_compute; reflexivity).
    split; [exact Hw|]. split; [exact E1|]. split; [vm_compute; reflexivity|]. split; [vm_compute; discriminate|]. split; [vm_compute; discriminate|].
    refine (proj2 (C149_file_partial _ _ _ _ _ _ _ Hw _ _ E1 E2)); [vm_compute; reflexivity|]. intros n Hn. vm_compute in Hn. injection Hn as <-. discriminate.
  - exists (dict_or (read_file (cut_at 31 typed_2160) 0)), (dict_or (read_file typed_2160 0)).
    assert (Hw : whole_lines (cut_at 31 typed_2160)) by (right; exists (less (cut_at 31 typed_2160)); vm_compute; reflexivity).
    assert (E1 : read_file (cut_at 31 typed_2160) 0 = Ok (C2160, dict_or (read_file (cut_at 31 typed_2160) 0))) by (vm_compute; reflexivity).
    assert (E2 : read_file (cut_at 31 typed_2160 ++ cut_off 31 typed_2160) 0 = Ok (C2160, dict_or (read_file typed_2160 0))) by (vm_compute; reflexivity).
    split; [exact Hw|]. split; [exact E1|]. split; [vm_compute; reflexivity|]. split; [vm_compute; discriminate|]. split; [vm_compute; discriminate|].
    refine (proj2 (C149_file_partial _ _ _ _ _ _ _ Hw _ _ E1 E2)); [vm_compute; reflexivity|]. intros n Hn. vm_compute in Hn. injection Hn as <-. discriminate.
Qed.

(** A cut inside a number: the last value was 25, the file read has 2.  A cut
    between the lines of the header: the file read has no data and an empty
    remark. *)
Definition typed_25 : str := unlines (map lit ["15 1001"; "A"; "Org"; "Src"; "Mission"; "1 1"; "1999 1 1 2000 2 2"; "0"; "height (m)"; "1"; "1"; "-9";
   "temp (K)"; "0"; "0"; "0 280"; "10 2"]%pylit).
Theorem C149_refuted :
  (exists a b (d d' : na whole), read_file a 0 = Ok (C1001, d) /\ read_file (a ++ b) 0 = Ok (C1001, d') /\
     openNAFile_r (num:=whole) a 0 = openNAFile_r (a ++ b) 0 /\ ~ first_marks C1001 d d') /\
  (exists a b (d d' : na whole), whole_lines a /\ read_file a 0 = Ok (C1001, d) /\ read_file (a ++ b) 0 = Ok (C1001, d') /\
     attr d kNCOM = PList [PStr []] /\ attr d' kNCOM = PList [PStr (lit "remark")] /\ attr d kX = PList []).
Proof.
  split.
  - exists (firstn (length typed_25 - 1) typed_25), (lit "5" ++ nl), (dict_or (read_file (firstn (length typed_25 - 1) typed_25) 0)),
      (dict_or (read_file (firstn (length typed_25 - 1) typed_25 ++ lit "5" ++ nl) 0)).
    split; [vm_compute; reflexivity|]. split; [vm_compute; reflexivity|]. split; [vm_compute; reflexivity|].
    intros [(p & q & Ep & Eq & HF) _]. vm_compute in Ep. injection Ep as <-. vm_compute in Eq. injection Eq as <-.
    inversion HF as [|? ? ? ? Hg _]. destruct Hg as [Hg | (u & w & Eu & Ew)]; [discriminate|].
    injection Eu as <-. discriminate Ew.
  - exists (cut_at 17 typed_1001), (cut_off 17 typed_1001), (dict_or (read_file (cut_at 17 typed_1001) 0)), (dict_or (read_file (cut_at 17 typed_1001 ++ cut_off 17 typed_1001) 0)).
    split.
    { replace (cut_at 17 typed_1001) with (unlines (map lit ["18 1001"; "  Jones, A.   {author}"; "Org"; "Src"; "Mission"; "1 1"; "1999 01 01    2000 2 2"; "0"; "height (m)"; "2"; "1"; "10"; "-9 -99";
        "temp (K)"; "ozone"; "0"; "1"]%pylit)) by (vm_compute; reflexivity).
      unfold unlines. match goal with |- whole_lines (concat (map ?f ?L)) => rewrite <- (firstn_all (map f L)); apply cut_whole end. }
    split; [vm_compute; reflexivity|]. split; [vm_compute; reflexivity|]. split; [vm_compute; reflexivity|]. split; vm_compute; reflexivity.
Qed.
Print Assumptions C149_refuted.
