(** Properties C32, C33, C34, C38, C39 and C43: choice of the file format and
    small helpers (nappy/utils/common_utils.py, nappy/nappy_api.py). *)
From Coq Require Import List NArith ZArith Bool Lia.
From Verif Require Import Py.Str Py.Res Py.Num Model.Dict Model.TextParser Model.CommonUtils Model.NARead
  Model.Utils Spec.TextSpec Spec.Records Spec.ZNum Spec.WholeNum Spec.Samples Spec.RecordSamples
  Proofs.StrLemmas Proofs.NumLemmas Proofs.TextLemmas Proofs.ReadFrame Proofs.SampleOk.
Import ListNotations.

(** The nine file format indices that nappy has classes for. *)
Definition nine : list Z := [1001; 1010; 1020; 2010; 2110; 2160; 2310; 3010; 4010]%Z.

(** * C32 *)
Section Choose.
Context {num : Type} `{NumOps num}.
Lemma choose_sound (d : na num) f : chooseFFI d = Ok f -> In f nine /\ d kNIV = Some (PInt (f / 1000)).
Proof.
  unfold chooseFFI. destruct (d kNIV) as [v|]; cbn [of_opt bindR]; [|discriminate].
  destruct v as [|niv| | |]; cbn [as_int bindR]; try discriminate.
  assert (K : forall z, Ok z = Ok f -> In z nine -> (z / 1000 = niv)%Z -> In f nine /\ Some (@PInt num niv) = Some (PInt (f / 1000))).
  { intros z E Hi Hz. injection E as <-. now rewrite Hz. }
  destruct (Z.ltb_spec 4 niv); [discriminate|].
  destruct (Z.eqb_spec niv 4); [intros E; apply (K _ E); subst; cbn; tauto|].
  destruct (Z.eqb_spec niv 3); [intros E; apply (K _ E); subst; cbn; tauto|].
  destruct (Z.eqb_spec niv 2).
  - destruct (d kX) as [X|]; cbn [of_opt bindR]; [|discriminate].
    destruct (index X 0) as [x0|]; cbn [bindR]; [|discriminate].
    destruct (index x0 0) as [x00|]; cbn [bindR]; [|discriminate].
    destruct (is_str x00); [intros E; apply (K _ E); subst; cbn; tauto|].
    destruct (index x0 1) as [x01|]; cbn [bindR]; [|discriminate].
    destruct x01 as [| | | |[|? [|]]]; intros E; apply (K _ E); subst; cbn; tauto.
  - destruct (Z.eqb_spec niv 1); [|discriminate].
    destruct (d kNAUXV); [destruct (d kNVPM)|]; intros E; apply (K _ E); subst; cbn; tauto.
Qed.
End Choose.

(** The choice is always one of the nine FFIs, with the leading digit NIV; NIV
    outside 1 to 4 is an error; and a choice is made when NIV is 1, 3 or 4, or
    when NIV is 2 and X[0] has at least two elements.  Missing from C32: a
    choice for every other dictionary with NIV = 2 (see [C32_choice_refuted]). *)
Theorem C32_choice_partial : forall num (Num : NumOps num) (d : na num),
  (forall f, chooseFFI d = Ok f -> In f nine /\ d kNIV = Some (PInt (f / 1000))) /\
  (forall niv, d kNIV = Some (PInt niv) -> ~ (1 <= niv <= 4)%Z -> exists e, chooseFFI d = Err e) /\
  (forall niv, d kNIV = Some (PInt niv) -> (niv = 1 \/ niv = 3 \/ niv = 4)%Z -> exists f, chooseFFI d = Ok f) /\
  (forall a b l X, d kNIV = Some (PInt 2) -> d kX = Some (PList (PList (a :: b :: l) :: X)) ->
     exists f, chooseFFI d = Ok f).
Proof.
  intros num Num d. split; [apply choose_sound|]. split; [|split].
  - intros niv En Hn. destruct (chooseFFI d) as [f|e] eqn:E; [|eauto]. exfalso.
    apply choose_sound in E as [Hi E]. rewrite En in E. injection E as ->. apply Hn. cbn in Hi.
    repeat destruct Hi as [<- | Hi]; try (cbv; split; discriminate). contradiction.
  - intros niv En Hn. unfold chooseFFI. rewrite En. cbn [of_opt bindR as_int].
    destruct Hn as [-> | [-> | ->]]; cbn; eauto. destruct (d kNAUXV); [destruct (d kNVPM)|]; eauto.
  - intros a b l X En Ex. unfold chooseFFI. rewrite En, Ex. cbn.
    destruct (is_str a); [eauto|]. destruct b as [| | | |[|? [|]]]; eauto.
Qed.
Example C32_example :
  chooseFFI (of_list (items1001 s1001)) = Ok 1001%Z /\ chooseFFI (of_list (items1010 s1010)) = Ok 1010%Z /\
  chooseFFI (of_list (items1020 s1020)) = Ok 1020%Z /\ chooseFFI (of_list (items2010 s2010)) = Ok 2010%Z /\
  chooseFFI (of_list (items2110 s2110)) = Ok 2110%Z /\ chooseFFI (of_list (items2160 s2160)) = Ok 2160%Z /\
  chooseFFI (of_list (items2310 s2310)) = Ok 2310%Z /\ chooseFFI (of_list (items2010 s3010)) = Ok 3010%Z /\
  chooseFFI (of_list (items2010 s4010)) = Ok 4010%Z.
Proof. repeat split. Qed.

(** A well-formed dictionary of FFI 2010 with a single mark: [X[0][1]] raises
    IndexError. *)
Definition s2010_one : r2010 whole := mk2010 sample_common [va "temp (K)"] [va "aux"]
  (fl 0) (lit "lat (deg)") [3]%nat [mkAxis (fl 5) (fls [10]%Z) (lit "lon (deg)")]
  (fls [1]%Z) [fls [7]%Z] [[fls [1; 2; 3]%Z]].
Lemma s2010_one_ok : ok2010 s2010_one.
Proof.
  destruct s2010_ok as (A1 & A2 & A3 & A4 & A5 & A6 & A7 & A8 & _).
  repeat (split; [first [assumption|repeat constructor]|]).
  repeat constructor.
Qed.
Theorem C32_choice_refuted : exists (r : r2010 whole) (d : na whole),
  ok2010 r /\ has d (items2010 r) /\ d kNIV = Some (PInt 2) /\ chooseFFI d = Err EIndexError.
Proof.
  exists s2010_one, (dict_of (items2010 s2010_one)).
  split; [apply s2010_one_ok|]. split; [apply dict_of_has; nodup|]. split; reflexivity.
Qed.

(** * C33 *)
(** [d] is the dictionary with the given entries without FFI (NLHEAD and the
    ignored lines are not looked at). *)
Definition without_ffi {num} (d : na num) (items : list (key * pyv num)) : Prop :=
  d kFFI = None /\
  forall k, ~ In k [kFFI; kNLHEAD; kIGN] ->
    d k = match find (fun p => key_beq (fst p) k) items with Some p => Some (snd p) | None => None end.

Section Refind.
Context {num : Type} `{NumOps num}.
Implicit Type d : na num.
Ltac look W k := let E := fresh in
  pose proof (proj2 W k) as E; cbn in E; specialize (E ltac:(intuition discriminate)).

Lemma refind1001 r d : without_ffi d (items1001 r) -> chooseFFI d = Ok 1001%Z.
Proof.
  intros W. unfold chooseFFI. look W kNIV. look W kNAUXV. rewrite H0. cbn. now rewrite H1.
Qed.
Lemma refind1010 r d : without_ffi d (items1010 r) -> chooseFFI d = Ok 1010%Z.
Proof.
  intros W. unfold chooseFFI. look W kNIV. look W kNAUXV.
  pose proof (proj2 W kNVPM) as E. cbn in E. specialize (E ltac:(intuition discriminate)).
  rewrite H0. cbn. rewrite H1. 
  destruct (r2_aux r); cbn in E; now rewrite E.
Qed.
Lemma refind1020 r d : without_ffi d (items1020 r) -> chooseFFI d = Ok 1020%Z.
Proof.
  intros W. unfold chooseFFI. look W kNIV. look W kNAUXV.
  pose proof (proj2 W kNVPM) as E. cbn in E. specialize (E ltac:(intuition discriminate)).
  rewrite H0. cbn. rewrite H1. 
  destruct (r3_aux r); cbn in E; now rewrite E.
Qed.
Lemma refind2010 r d : (length (r4_nx r) = 1)%nat -> (2 <= length (r4_x r))%nat ->
  without_ffi d (items2010 r) -> chooseFFI d = Ok 2010%Z.
Proof.
  intros L Lx W. unfold chooseFFI. look W kNIV. 
  pose proof (proj2 W kX) as E. cbn in E. specialize (E ltac:(intuition discriminate)).
  assert (E' : d kX = Some (PList (nums_pv (r4_x r) :: map nums_pv (map x_def (r4_axes r))))).
  { destruct (r4_aux r); exact E. }
  rewrite H0, L, E'. destruct (r4_x r) as [|a [|b x]]; cbn in Lx; try lia. destruct a, b; reflexivity.
Qed.
Lemma refind3010 r d : (length (r4_nx r) = 2 \/ length (r4_nx r) = 3)%nat ->
  without_ffi d (items2010 r) -> chooseFFI d = Ok (Z.of_nat (S (length (r4_nx r))) * 1000 + 10)%Z.
Proof.
  intros L W. unfold chooseFFI. look W kNIV. rewrite H0. destruct L as [-> | ->]; reflexivity.
Qed.
Lemma refind2110 r d : (2 <= length (m_in (hd (mkMark (NI 0) []) (r5_x r))))%nat ->
  without_ffi d (items2110 r) -> chooseFFI d = Ok 2110%Z.
Proof.
  intros Lx W. unfold chooseFFI. look W kNIV. 
  pose proof (proj2 W kX) as E. cbn in E. specialize (E ltac:(intuition discriminate)).
  assert (E' : d kX = Some (PList (map (mark_pv pv) (r5_x r)))) by (destruct (r5_aux r); exact E).
  rewrite H0, E'. destruct (r5_x r) as [|m x]; cbn in Lx; [lia|].
  destruct m as [a [|b [|b' i]]]; cbn in Lx; try lia. destruct a; reflexivity.
Qed.
Lemma refind2160 r d : r6_x r <> [] -> without_ffi d (items2160 r) -> chooseFFI d = Ok 2160%Z.
Proof.
  intros Lx W. unfold chooseFFI. look W kNIV. look W kX.
  rewrite H0, H1. destruct (r6_x r) as [|m x]; [congruence|]. reflexivity.
Qed.
Lemma refind2310 r d : r7_x r <> [] -> nth 1 (r7_a r) [] <> [] -> without_ffi d (items2310 r) -> chooseFFI d = Ok 2310%Z.
Proof.
  intros Lx La W. unfold chooseFFI. look W kNIV. 
  pose proof (proj2 W kX) as E. cbn in E. specialize (E ltac:(intuition discriminate)).
  assert (E' : d kX = Some (PList (map (fun p => PList [pv (fst p); nums_pv [snd p]]) (combine (r7_x r) (nth 1 (r7_a r) []))))).
  { destruct (r7_aux r); exact E. }
  rewrite H0, E'. destruct (r7_x r) as [|m x]; [congruence|]. destruct (nth 1 (r7_a r) []) as [|a l]; [congruence|].
  destruct m; reflexivity.
Qed.
End Refind.

(** For every well-formed dictionary of each FFI the choice is that FFI, if a
    2010 dictionary has at least two marks, a 2110 one at least two values on
    the inner axis of the first mark, and a 2160 or 2310 one at least one mark.
    And for every file of FFI 1001, 1010, 1020, 3010 or 4010 that can be read,
    whatever it contains.  Missing: the other dictionaries, for which it is
    false ([C33_refind_refuted]). *)
Theorem C33_refind_partial : forall num (Num : NumOps num) (g : num -> num) (d : na num),
  (forall r, ok1001 r -> without_ffi d (items1001 r) -> chooseFFI d = Ok 1001%Z) /\
  (forall r, ok1010 r -> without_ffi d (items1010 r) -> chooseFFI d = Ok 1010%Z) /\
  (forall r, ok1020 r -> without_ffi d (items1020 r) -> chooseFFI d = Ok 1020%Z) /\
  (forall r, ok2010 r -> (length (r4_nx r) = 1 -> 2 <= length (r4_x r))%nat ->
     without_ffi d (items2010 r) -> chooseFFI d = Ok (Z.of_nat (S (length (r4_nx r))) * 1000 + 10)%Z) /\
  (forall r, ok2110 g r -> (2 <= length (m_in (hd (mkMark (NI 0) []) (r5_x r))))%nat ->
     without_ffi d (items2110 r) -> chooseFFI d = Ok 2110%Z) /\
  (forall r, ok2160 g r -> r6_x r <> [] -> without_ffi d (items2160 r) -> chooseFFI d = Ok 2160%Z) /\
  (forall r, ok2310 g r -> r7_x r <> [] -> without_ffi d (items2310 r) -> chooseFFI d = Ok 2310%Z) /\
  (forall content ignore c d', read_file content ignore = Ok (c, d') ->
     In c [C1001; C1010; C1020; C3010; C4010] ->
     (forall k, k <> kFFI -> d k = d' k) -> chooseFFI d = Ok (cls_ffi c)).
Proof.
  intros num Num g d. split; [|split; [|split; [|split; [|split; [|split; [|split]]]]]].
  - intros r _. apply refind1001.
  - intros r _. apply refind1010.
  - intros r _. apply refind1020.
  - intros r Hok Hx W. destruct Hok as (_ & _ & _ & _ & L & _).
    destruct (Nat.eq_dec (length (r4_nx r)) 1) as [E | E]; [rewrite E; eapply refind2010; eauto|].
    apply refind3010; [lia|exact W].
  - intros r _. apply refind2110.
  - intros r _. apply refind2160.
  - intros r Hok Hx. apply refind2310; [exact Hx|].
    destruct Hok as (_ & _ & _ & L3 & _ & _ & La & _ & Fa & _).
    rewrite Forall_forall in Fa. intros E. assert (Hi : In (nth 1 (r7_a r) []) (r7_a r)) by (apply nth_In; lia).
    apply Fa in Hi. rewrite E in Hi. destruct (r7_x r); [congruence|discriminate].
  - intros content ignore c d' E Hc Hs. unfold read_file in E.
    destruct (openNAFile_r content ignore) as [[c0 h]|] eqn:Eo; cbn [bindR] in E; [|discriminate].
    cbn [fst snd] in E. destruct (readData h c0 content) as [d0|] eqn:Ed; cbn [bindR] in E; [|discriminate].
    injection E as -> ->. apply top_line_read in Eo as (nlh & ffi & _ & Hh & Ef & Ec).
    assert (Hk : forall k, ~ In k [kX; kV; kA; kNX; kDX] -> d' k = h k).
    { unfold readData in Ed. destruct (setupArrays h c); cbn [bindR] in Ed; [|discriminate].
      destruct (h_int h kNLHEAD); cbn [bindR] in Ed; [|discriminate].
      destruct (checkForBlankLines _ _); cbn [bindR] in Ed; [|discriminate].
      destruct (data_loop _ _ _ _ _ _); cbn [bindR] in Ed; [|discriminate].
      injection Ed as <-. intros k Hk. cbn in Hk. unfold store.
      destruct c; cbv zeta; rewrite !upd_other by (intros <-; tauto); reflexivity. }
    destruct (hr_common _ _ _ _ Hh) as (ffi' & nlh' & C). pose proof (mr_niv _ _ _ _ _ C) as Hn.
    pose proof (mr_ffi _ _ _ _ _ C) as Hf. rewrite Ef in Hf. injection Hf as <-.
    assert (ffi = cls_ffi c) as ->.
    { unfold getNAFileClass in Ec. destruct (find _ all_cls) as [c1|] eqn:F; [|discriminate].
      injection Ec as ->. apply find_some in F as [_ F]. apply Z.eqb_eq in F. congruence. }
    assert (Hs' : forall k, k <> kFFI -> ~ In k [kX; kV; kA; kNX; kDX] -> d k = h k) by (intros k K1 K2; rewrite Hs; auto).
    pose proof (hr_aux _ _ _ _ Hh) as Ha. pose proof (hr_nvpm _ _ _ _ Hh) as Hv.
    unfold chooseFFI. rewrite (Hs' kNIV), (Hs' kNAUXV), (Hs' kNVPM), Hn by (cbn; intuition discriminate).
    cbn in Hc. destruct Hc as [<- | [<- | [<- | [<- | [<- | []]]]]].
    + destruct Ha as [-> _]. reflexivity.
    + destruct Ha as [(n & Ha) _]. rewrite (ar_n _ _ Ha), Hv. reflexivity.
    + destruct Ha as [(n & Ha) _]. destruct Hv as [v Hv]. rewrite (ar_n _ _ Ha), Hv. reflexivity.
    + reflexivity.
    + reflexivity.
Qed.
Example C33_example : ok2160 (fun x => x) s2160 /\ r6_x s2160 <> [] /\
  without_ffi (fun k => match k with kFFI => None | _ => of_list (items2160 s2160) k end) (items2160 s2160).
Proof.
  split; [apply s2160_ok|]. split; [discriminate|]. split; [reflexivity|].
  intros k Hk. destruct k; try reflexivity. exfalso. apply Hk. now left.
Qed.

(** The FFI of a well-formed 2010 dictionary with one mark is not found. *)
Theorem C33_refind_refuted : exists (r : r2010 whole) (d : na whole),
  ok2010 r /\ length (r4_nx r) = 1%nat /\ without_ffi d (items2010 r) /\ chooseFFI d <> Ok 2010%Z.
Proof.
  exists s2010_one, (fun k => match k with kFFI => None | _ => of_list (items2010 s2010_one) k end).
  split; [apply s2010_one_ok|]. split; [reflexivity|]. split; [|discriminate].
  split; [reflexivity|]. intros k Hk. destruct k; try reflexivity. exfalso. apply Hk. now left.
Qed.

(** * C34 *)
(** The top line of a file: the line after the ignored ones. *)
Definition top_line (content : str) (ignore : Z) : str := nth (Z.to_nat ignore) (lines (univ_newlines content)) [].
(** The line consists of two whole numbers (and possibly a {...} annotation). *)
Definition two_ints (l : str) (n f : Z) : Prop :=
  exists p a b, payload l p /\ fields p [a; b] /\ int_of_str a = Some n /\ int_of_str b = Some f.

Lemma two_ints_items {num} `{NumOps num} l n f :
  readItemsFromLine (num:=num) l 2 TInt = Ok [PInt n; PInt f] <-> two_ints l n f.
Proof.
  split.
  - intros E. apply readItemsFromLine_ok in E as [_ (ws & Hf & Em)]; [|lia].
    destruct Hf as [Hf | [_ ->]]; [|apply mapR_length in Em; discriminate].
    pose proof (mapR_length _ _ _ Em) as L. destruct ws as [|a [|b [|]]]; try discriminate.
    cbn [mapR conv] in Em. destruct (int_of_str a) as [za|] eqn:Ea; cbn [of_opt bindR] in Em; [|discriminate].
    destruct (int_of_str b) as [zb|] eqn:Eb; cbn [of_opt bindR] in Em; [|discriminate].
    injection Em as -> ->. exists (right_strip_braces l), a, b.
    split; [now apply right_strip_payload|]. auto.
  - intros (p & a & b & Hp & Hf & Ha & Hb). apply right_strip_payload in Hp.
    unfold readItemsFromLine. rewrite Hp, re_split_strip. apply fields_split in Hf.
    destruct (is_nil (strip p)) eqn:En.
    { apply is_nil_true in En. rewrite <- split_ws_strip, En in Hf. discriminate. }
    rewrite Hf. cbn. now rewrite Ha, Hb.
Qed.

(** An object is only made for one of the nine FFIs, and then FFI and NIV of
    the object are the second number of the top line and its leading digit. *)
Theorem C34_open : forall num (Num : NumOps num) content ignore c (d : na num),
  openNAFile_r content ignore = Ok (c, d) ->
  exists n f, two_ints (top_line content ignore) n f /\ In f nine /\ cls_ffi c = f /\
    d kFFI = Some (PInt f) /\ d kNIV = Some (PInt (f / 1000)).
Proof.
  intros num Num content ignore c d E. apply top_line_read in E as (nlh & f & E & Hh & Ef & Ec).
  exists nlh, f. split; [now apply two_ints_items in E|].
  unfold getNAFileClass in Ec. destruct (find _ all_cls) as [c1|] eqn:F; [|discriminate].
  injection Ec as ->. apply find_some in F as [_ F]. apply Z.eqb_eq in F. subst f.
  destruct (hr_common _ _ _ _ Hh) as (f & n & C). pose proof (mr_ffi _ _ _ _ _ C) as Hf.
  pose proof (mr_niv _ _ _ _ _ C) as Hn. rewrite Hf in Ef. injection Ef as ->.
  split; [destruct c; cbn; tauto|]. split; [reflexivity|]. split; [exact Hf|]. rewrite Hn. now destruct c.
Qed.
(** Any other FFI is an error. *)
Theorem C34_unsupported : forall num (Num : NumOps num) content ignore n f,
  two_ints (top_line content ignore) n f -> ~ In f nine ->
  openNAFile_r (num:=num) content ignore = Err EImportError.
Proof.
  intros num Num content ignore n f Ht Hn. apply (two_ints_items (num:=num)) in Ht.
  unfold openNAFile_r, readFFI. unfold top_line in Ht. unfold readlines. cbv zeta. rewrite Ht. cbn.
  unfold getNAFileClass. destruct (find _ all_cls) as [c1|] eqn:F; [|reflexivity].
  exfalso. apply find_some in F as [_ F]. apply Z.eqb_eq in F. subst f. apply Hn. destruct c1; cbn; tauto.
Qed.
Definition file_3333 : str := unlines [lit "15 3333"; lit "someone"].
Example C34_example : two_ints (top_line file_3333 0) 15 3333 /\ ~ In 3333%Z nine /\
  openNAFile_r (num:=Z) file_3333 0 = Err EImportError.
Proof.
  split; [|split; [cbn; intuition discriminate|reflexivity]].
  apply (two_ints_items (num:=Z)). reflexivity.
Qed.
Definition small_1001 : str := unlines (map lit
  ["15 1001"; "me"; "org"; "source"; "mission"; "1 1"; "2001 01 02 2003 04 05"; "0"; "time (s)"; "1"; "1"; "9"; "temp (K)"; "0"; "0"]%pylit).
Example C34_example_open :
  match openNAFile_r (num:=Z) small_1001 0 with
  | Ok (c, d) => c = C1001 /\ d kNIV = Some (PInt 1) /\ d kVNAME = Some (PList [PStr (lit "temp (K)")])
  | Err _ => False
  end.
Proof. vm_compute. auto. Qed.

(** * C38 *)
(** The old extension is never removed: the cut is past the end of the name. *)
Theorem C38_extension_partial : forall name format : str,
  getFileNameWithNewExtension name format = name ++ [c_dot] ++ format.
Proof.
  intros name format. unfold getFileNameWithNewExtension. cbv zeta.
  destruct (-1 <? find_str [c_dot] (slice_from name (-4)))%Z eqn:E; [|reflexivity].
  rewrite slice_to_ge; [reflexivity|]. apply Z.ltb_lt in E. lia.
Qed.
Theorem C38_extension_refuted : exists stem ext format : str,
  ext <> [] /\ (length ext <= 3)%nat /\
  getFileNameWithNewExtension (stem ++ [c_dot] ++ ext) format <> stem ++ [c_dot] ++ format.
Proof. exists (lit "file"), (lit "na"), (lit "nc"). split; [discriminate|]. split; [cbn; lia|discriminate]. Qed.
(** In fact it is wrong for every name with an extension. *)
Theorem C38_extension_refuted_always : forall stem ext format : str,
  getFileNameWithNewExtension (stem ++ [c_dot] ++ ext) format <> stem ++ [c_dot] ++ format.
Proof.
  intros stem ext format. rewrite C38_extension_partial. intros E.
  apply (f_equal (@length N)) in E. rewrite !app_length in E. cbn [length] in E. lia.
Qed.
Example C38_example : getFileNameWithNewExtension (lit "a.na") (lit "nc") = lit "a.na.nc".
Proof. reflexivity. Qed.

(** * C39 *)
Definition flatten (l : list (str * str)) : list str := flat_map (fun p => [fst p; snd p]) l.
Definition no_comma (s : str) : Prop := ~ In c_comma s.
(** The last value given for a key. *)
Fixpoint last_value (l : list (str * str)) (k : str) : option str :=
  match l with
  | [] => None
  | (k', v) :: t => match last_value t k with Some v' => Some v' | None => if str_eqb k k' then Some v else None end
  end.

Lemma pairs_flatten l : pairs (flatten l) = Ok l.
Proof. induction l as [|[a b] l IH]; [reflexivity|].
  change (flatten ((a, b) :: l)) with (a :: b :: flatten l). cbn [pairs]. now rewrite IH. Qed.
Lemma pairs_sound n : forall items l, (length items <= n)%nat -> pairs items = Ok l -> items = flatten l.
Proof.
  induction n as [|n IH]; intros items l Hl E.
  - destruct items; [|cbn in Hl; lia]. now injection E as <-.
  - destruct items as [|a [|b t]]; cbn in E; try discriminate; [now injection E as <-|].
    destruct (pairs t) as [l0|] eqn:Et; cbn in E; [|discriminate]. injection E as <-.
    change (flatten ((a, b) :: l0)) with (a :: b :: flatten l0). now rewrite <- (IH t l0) by (auto; cbn in Hl; lia).
Qed.
Lemma pairs_total n : forall items, (length items <= n)%nat -> Nat.even (length items) = true -> exists l, pairs items = Ok l.
Proof.
  induction n as [|n IH]; intros items Hl He.
  - destruct items; [|cbn in Hl; lia]. now exists [].
  - destruct items as [|a [|b t]]; [now exists []|discriminate|]. cbn in Hl.
    destruct (IH t) as [l El]; [lia|exact He|]. exists ((a, b) :: l). cbn. now rewrite El.
Qed.
Lemma flatten_even l : Nat.even (length (flatten l)) = true.
Proof. induction l as [|p l IH]; [reflexivity|exact IH]. Qed.
Lemma even_S n : Nat.even (S n) = negb (Nat.even n).
Proof. rewrite Nat.even_succ. now rewrite <- Nat.negb_even. Qed.

Lemma sd_get_set d k v k' : sd_get (sd_set d k v) k' = if str_eqb k' k then Some v else sd_get d k'.
Proof.
  induction d as [|[k0 v0] d IH]; cbn.
  - destruct (str_eqb k' k); reflexivity.
  - destruct (str_eqb k k0) eqn:E; cbn.
    + apply str_eqb_eq in E. subst k0. destruct (str_eqb k' k); reflexivity.
    + rewrite IH. destruct (str_eqb k' k0) eqn:E1; [|reflexivity]. destruct (str_eqb k' k) eqn:E2; [|reflexivity].
      apply str_eqb_eq in E1, E2. subst. assert (str_eqb k0 k0 = true) by now apply str_eqb_eq. congruence.
Qed.
Lemma fold_get l : forall d k, sd_get (fold_left (fun d p => sd_set d (fst p) (snd p)) l d) k =
  match last_value l k with Some v => Some v | None => sd_get d k end.
Proof.
  induction l as [|[a b] l IH]; intros d k; [reflexivity|]. cbn [fold_left fst snd last_value].
  rewrite IH, sd_get_set. destruct (last_value l k); [reflexivity|]. now destruct (str_eqb k a).
Qed.
Lemma sd_set_keys d k v x : In x (map fst (sd_set d k v)) -> x = k \/ In x (map fst d).
Proof.
  induction d as [|[k0 v0] d IH]; cbn; [intuition|].
  destruct (str_eqb k k0) eqn:E; cbn; [apply str_eqb_eq in E; subst; tauto|]. intuition.
Qed.
Lemma sd_set_nodup d k v : NoDup (map fst d) -> NoDup (map fst (sd_set d k v)).
Proof.
  induction d as [|[k0 v0] d IH]; cbn; intros Hd; [repeat constructor; tauto|].
  inversion Hd; subst. destruct (str_eqb k k0) eqn:E; cbn.
  - apply str_eqb_eq in E. subst. now constructor.
  - constructor; [|auto]. intros Hi. apply sd_set_keys in Hi as [-> | Hi]; [|contradiction].
    assert (str_eqb k k = true) by now apply str_eqb_eq. congruence.
Qed.
Lemma fold_nodup l : forall d, NoDup (map fst d) -> NoDup (map fst (fold_left (fun d p => sd_set d (fst p) (snd p)) l d)).
Proof. induction l as [|p l IH]; intros d Hd; [exact Hd|]. cbn. apply IH, sd_set_nodup, Hd. Qed.
Lemma count_items items : items <> [] -> Forall no_comma items ->
  Nat.even (count_chr c_comma (join [c_comma] items)) = negb (Nat.even (length items)).
Proof.
  intros Hn Hc. assert (Hc' : Forall (fun i => mem_chr c_comma i = false) items).
  { eapply Forall_impl; [|exact Hc]. intros a. apply mem_chr_false. }
  pose proof (split_chr_length c_comma (join [c_comma] items)) as L. rewrite split_chr_join in L by auto.
  rewrite L, even_S. now rewrite negb_involutive.
Qed.

Lemma split_aux_nosep c s : no_comma (fst (split_chr_aux c_comma s)) /\ Forall no_comma (snd (split_chr_aux c_comma s)) -> c <> c_comma ->
  no_comma (fst (split_chr_aux c_comma (c :: s))) /\ Forall no_comma (snd (split_chr_aux c_comma (c :: s))).
Proof.
  intros [H1 H2] Hc. cbn [split_chr_aux]. destruct (split_chr_aux c_comma s) as [w ws].
  destruct (N.eqb_spec c c_comma); [contradiction|]. cbn in *. split; [|exact H2]. intros [E | Hi]; [congruence|]. now apply H1.
Qed.
Lemma split_chr_nosep s : Forall no_comma (split_chr c_comma s).
Proof.
  assert (K : no_comma (fst (split_chr_aux c_comma s)) /\ Forall no_comma (snd (split_chr_aux c_comma s))).
  { induction s as [|c s IH]; [split; [intros []|constructor]|].
    destruct (N.eq_dec c c_comma) as [-> | Hc]; [|now apply split_aux_nosep].
    cbn [split_chr_aux]. destruct (split_chr_aux c_comma s) as [w ws]. cbn in *. split; [intros []|now constructor]. }
  unfold split_chr. destruct (split_chr_aux c_comma s) as [w ws]. now constructor.
Qed.

(** Pairs joined with commas are read as these pairs. *)
Theorem C39_pairs : forall l : list (str * str), l <> [] -> Forall no_comma (flatten l) ->
  makeListFromCommaSepString (join [c_comma] (flatten l)) = Ok l /\
  exists d, makeDictFromCommaSepString (join [c_comma] (flatten l)) = Ok d /\
    NoDup (map fst d) /\ forall k, sd_get d k = last_value l k.
Proof.
  intros l Hn Hc.
  assert (Hn' : flatten l <> []) by (destruct l as [|[]]; [congruence|discriminate]).
  assert (Hc' : Forall (fun i => mem_chr c_comma i = false) (flatten l)).
  { eapply Forall_impl; [|exact Hc]. intros a. apply mem_chr_false. }
  unfold makeListFromCommaSepString, makeDictFromCommaSepString.
  rewrite count_items, flatten_even, split_chr_join, pairs_flatten by auto. cbn [negb bindR].
  split; [reflexivity|]. eexists. split; [reflexivity|]. split; [apply fold_nodup; constructor|].
  intros k. rewrite fold_get. cbn. now destruct (last_value l k).
Qed.
(** An odd number of items is rejected. *)
Theorem C39_odd : forall items : list str, Forall no_comma items -> Nat.even (length items) = false ->
  (exists e, makeListFromCommaSepString (join [c_comma] items) = Err e) /\
  (exists e, makeDictFromCommaSepString (join [c_comma] items) = Err e).
Proof.
  intros items Hc Ho. unfold makeListFromCommaSepString, makeDictFromCommaSepString.
  rewrite count_items, Ho by (auto; destruct items; discriminate). cbn. eauto.
Qed.
(** Every string is either such a list of pairs or rejected. *)
Theorem C39_all_strings : forall s : str,
  (exists l, makeListFromCommaSepString s = Ok l /\ l <> [] /\ Forall no_comma (flatten l) /\ s = join [c_comma] (flatten l)) \/
  (exists items, Forall no_comma items /\ Nat.even (length items) = false /\ s = join [c_comma] items /\
     exists e, makeListFromCommaSepString s = Err e).
Proof.
  intros s. pose proof (join_split_chr c_comma s) as J. pose proof (split_chr_length c_comma s) as L.
  assert (Hc : Forall no_comma (split_chr c_comma s)) by apply split_chr_nosep.
  unfold makeListFromCommaSepString. destruct (Nat.even (count_chr c_comma s)) eqn:E.
  - right. exists (split_chr c_comma s). split; [exact Hc|]. split; [now rewrite L, even_S, E|]. split; [now rewrite J|]. eauto.
  - left. destruct (pairs_total _ (split_chr c_comma s) (le_n _)) as [l El]; [now rewrite L, even_S, E|].
    exists l. split; [exact El|]. pose proof (pairs_sound _ _ _ (le_n _) El) as F. rewrite <- F.
    split; [|split; [exact Hc|now rewrite J]]. intros ->. rewrite F in L. discriminate.
Qed.
Example C39_example : makeListFromCommaSepString (lit "a,1,b,2,a,3") = Ok [(lit "a", lit "1"); (lit "b", lit "2"); (lit "a", lit "3")] /\
  makeDictFromCommaSepString (lit "a,1,b,2,a,3") = Ok [(lit "a", lit "3"); (lit "b", lit "2")] /\
  makeListFromCommaSepString (lit "a,1,b") = Err (ENappy E_OddItems).
Proof. repeat split. Qed.

(** * C43 *)
Theorem C43_modified_copy : forall num (Num : NumOps num) (d : na num) v_new (i j : nat) ivol nvol X v iv nv,
  d kX = Some (PList X) -> d kV = Some v -> d kIVOL = Some iv -> d kNVOL = Some nv -> (i <= j)%nat ->
  exists d', modifyNADictCopy d v_new (Z.of_nat i) (Z.of_nat j) ivol nvol = Ok d' /\
    d' kX = Some (PList (firstn (j - i) (skipn i X))) /\ d' kV = Some v_new /\
    d' kIVOL = Some (PInt ivol) /\ d' kNVOL = Some (PInt nvol) /\
    forall k, ~ In k [kX; kV; kIVOL; kNVOL] -> d' k = d k.
Proof.
  intros num Num d v_new i j ivol nvol X v iv nv EX EV EI EN Hij. unfold modifyNADictCopy. rewrite EX.
  eexists. split; [reflexivity|]. rewrite upd_same. split; [|split; [|split; [|split]]].
  - do 2 f_equal. unfold slice, clip. destruct (Z.ltb_spec (Z.of_nat j) 0); [lia|]. destruct (Z.ltb_spec (Z.of_nat i) 0); [lia|].
    destruct (Nat.le_gt_cases (length X) i) as [Hi | Hi].
    + rewrite !skipn_all2 by lia. now rewrite !firstn_nil.
    + rewrite (Z.min_l (Z.of_nat i)) by lia. rewrite Nat2Z.id.
      destruct (Nat.le_gt_cases (length X) j) as [Hj | Hj].
      * rewrite Z.min_r by lia. rewrite !firstn_all2; auto; rewrite skipn_length; lia.
      * rewrite Z.min_l by lia. f_equal. lia.
  - rewrite upd_other by discriminate. now rewrite EV.
  - rewrite upd_other by discriminate. now rewrite EI.
  - rewrite upd_other by discriminate. now rewrite EN.
  - intros k Hk. cbn in Hk. rewrite upd_other by (intros <-; tauto).
    destruct (d k) eqn:E; [|reflexivity]. destruct k; try reflexivity; exfalso; tauto.
Qed.
Example C43_example : let d := of_list (items1001 s1001) in
  match modifyNADictCopy d (PList []) 1 3 2 5 with
  | Ok d' => d' kX = Some (nums_pv (fls [2; 4]%Z)) /\ d' kNVOL = Some (PInt 5) /\ d' kXNAME = Some (strs_pv [lit "time (s)"])
  | Err _ => False
  end.
Proof. vm_compute. auto. Qed.

(** For any integers, which count from the end when negative, and with or without
    the keys in the dictionary: none is added, and the others are as they were. *)
Definition bound (n : nat) (k : Z) : nat := if (k <? 0)%Z then (n - Z.to_nat (- k))%nat else Z.to_nat k.
Theorem C43_any : forall num (Num : NumOps num) (d : na num) v_new start stop ivol nvol X,
  d kX = Some (PList X) ->
  exists d', modifyNADictCopy d v_new start stop ivol nvol = Ok d' /\
    d' kX = Some (PList (firstn (bound (length X) stop - bound (length X) start) (skipn (bound (length X) start) X))) /\
    (forall k, d' k = None <-> d k = None) /\ (forall k, ~ In k [kX; kV; kIVOL; kNVOL] -> d' k = d k) /\
    (forall k v w, In (k, w) [(kV, v_new); (kIVOL, PInt ivol); (kNVOL, PInt nvol)] -> d k = Some v -> d' k = Some w).
Proof.
  intros num Num d v_new start stop ivol nvol X EX. unfold modifyNADictCopy. rewrite EX. eexists. split; [reflexivity |]. rewrite upd_same. split; [| split; [| split]].
  - do 2 f_equal. unfold slice.
    assert (Cl : forall k, Z.to_nat (clip (Z.of_nat (length X)) k) = Nat.min (bound (length X) k) (length X)).
    { intros k. unfold clip, bound. destruct (Z.ltb_spec k 0); lia. }
    assert (Nn : forall k, (0 <= clip (Z.of_nat (length X)) k)%Z) by (intros k; unfold clip; destruct (Z.ltb_spec k 0); lia).
    rewrite Z2Nat.inj_sub by apply Nn. rewrite !Cl. set (b := bound (length X) stop). set (a := bound (length X) start).
    destruct (Nat.le_gt_cases (length X) a) as [Ha | Ha].
    + rewrite (skipn_all2 (n := a)) by exact Ha. rewrite (Nat.min_r a) by exact Ha. rewrite skipn_all2 by lia. rewrite !firstn_nil. reflexivity.
    + rewrite (Nat.min_l a) by lia. destruct (Nat.le_gt_cases (length X) b) as [Hb | Hb].
      * rewrite Nat.min_r by exact Hb. rewrite !firstn_all2; auto; rewrite skipn_length; lia.
      * rewrite Nat.min_l by lia. reflexivity.
  - intros k. destruct (key_eq_dec k kX) as [-> | Nk]; [rewrite upd_same, EX; split; discriminate |]. rewrite upd_other by congruence. destruct (d k); split; (discriminate || reflexivity).
  - intros k Hk. cbn in Hk. rewrite upd_other by (intros <-; tauto). destruct (d k) eqn:E; [| reflexivity]. destruct k; try reflexivity; exfalso; tauto.
  - intros k v w [Q | [Q | [Q | []]]] Dk; injection Q as <- <-; rewrite upd_other by discriminate; rewrite Dk; reflexivity.
Qed.
Example C43_last : let d := of_list (items1001 s1001) in
  match modifyNADictCopy d (PList []) (-2) 9 2 5, modifyNADictCopy d (PList []) (-9) (-1) 2 5 with
  | Ok a, Ok b => a kX = Some (nums_pv (fls [2; 4]%Z)) /\ b kX = Some (nums_pv (fls [1; 2]%Z))
  | _, _ => False
  end.
Proof. vm_compute. auto. Qed.
Print Assumptions C43_any.

Print Assumptions C32_choice_partial.
Print Assumptions C32_choice_refuted.
Print Assumptions C33_refind_partial.
Print Assumptions C33_refind_refuted.
Print Assumptions C34_open.
Print Assumptions C34_unsupported.
Print Assumptions C38_extension_partial.
Print Assumptions C38_extension_refuted.
Print Assumptions C38_extension_refuted_always.
Print Assumptions C39_pairs.
Print Assumptions C39_odd.
Print Assumptions C39_all_strings.
Print Assumptions C43_modified_copy.
