(** Properties C09 to C17: a file that was written reads back.

    A record ([r1001] ... of Spec/Records.v) says what a well-formed dictionary
    of the FFI contains, [items*] are its dictionary entries, [norm*] is the
    record with the header numbers as floating point numbers and the data
    rounded by the float format ([g]).  [comes_back] and [same_again] are in
    Spec/RoundTripSpec.v.  The laws [str_law] and [fmt_law] say that numbers
    are printed as one token which [float] reads back. *)
From Coq Require Import List NArith ZArith Bool Lia.
From Verif Require Import Py.Str Py.Res Py.Num Model.Dict Model.TextParser Model.CommonUtils
  Model.NAWrite Model.NARead Spec.TextSpec Spec.Records Spec.RoundTripSpec Spec.Samples Spec.WholeNum Spec.RecordSamples
  Proofs.StrLemmas Proofs.RTHead Proofs.RT1 Proofs.RT2 Proofs.RT3 Proofs.RT4 Proofs.RT5 Proofs.RT6 Proofs.SampleOk Spec.IgnoredSpec Proofs.Ignored Proofs.ReadFrame.
Import ListNotations.

(** Options of a file that can be read: no annotation, white-space delimiter,
    the float format prints one token. *)
Definition plain_opts {num} `{NumOps num} (o : opts num) (g : num -> num) : Prop :=
  o_annot o = false /\ delim_ok (o_delim o) /\ str_law (num:=num) /\ fmt_law (o_fmt o) g.
Lemma plain_whole : plain_opts opts_whole (fun x => x).
Proof. split; [reflexivity|]. split; [apply delim4|]. split; [apply whole_str_law|apply whole_fmt_law]. Qed.

(** For witnesses: what is read is a dictionary of functions, so compute one
    entry of it. *)
Lemma run_pair {A B} (p : A * B) a : fst p = a -> p = (a, snd p).
Proof. destruct p. simpl. now intros ->. Qed.
Lemma opens_as file c k (v : pyv whole) :
  match read_file (num:=whole) file 0 with Ok (c', d') => Some (c', attr d' k) | Err _ => None end = Some (c, v) ->
  exists d', read_file (num:=whole) file 0 = Ok (c, d') /\ attr d' k = v.
Proof.
  destruct (read_file file 0) as [[c' d']|e]; [|discriminate]. intros K. injection K as -> K. eauto.
Qed.
Lemma again_differs file c :
  match read_file (num:=whole) file 0 with
  | Ok (c', d') =>
      let p := write_body opts_whole c' false (mkW [] [] d') in
      match fst p with
      | Ok _ => Some (c', str_eqb (w_file (snd p)) file)
      | Err _ => None
      end
  | Err _ => None
  end = Some (c, false) ->
  exists d' st', read_file (num:=whole) file 0 = Ok (c, d') /\
    write_body opts_whole c false (mkW [] [] d') = (Ok tt, st') /\ w_file st' <> file.
Proof.
  destruct (read_file file 0) as [[c' d']|e]; [|discriminate]. cbv zeta.
  destruct (write_body opts_whole c' false (mkW [] [] d')) as [[[]|e] st'] eqn:E; cbn [fst snd]; [|discriminate].
  intros K. injection K as -> K. exists d', st'. split; [reflexivity|]. split; [exact E|].
  intros K'. apply str_eqb_eq in K'. congruence.
Qed.

(** * C09 *)
Theorem C09_roundtrip_1001 : forall num (Num : NumOps num) (o : opts num) g (r : r1001 num) (d : na num) nlh,
  plain_opts o g -> ok1001 r -> has d (items1001 r) -> attr d kNLHEAD = PInt nlh ->
  comes_back o C1001 d (items1001 (norm1001 g r)).
Proof. intros num Num o g r d nlh (H1 & H2 & H3 & H4). intros. eapply rt1001; eauto. Qed.
Example C09_example : comes_back opts_whole C1001 (dict_of (items1001 s1001)) (items1001 (norm1001 (fun x => x) s1001)).
Proof.
  eapply C09_roundtrip_1001; [apply plain_whole|apply s1001_ok|apply dict_of_has; nodup|reflexivity].
Qed.
(** White space at the ends of comments is the only thing that does not come back. *)
Definition s1001sp : r1001 whole :=
  mk1001 (mkCommon (lit "De Witt, B.") (lit "BADC") (lit "Sonde") (lit "Test") 1 1 (1969, 1, 1)%Z (2002, 10, 31)%Z
      [lit "  Variable temp: temp (K)"; lit "    units = K "] [lit "   "])
    [va "temp (K)"] (fl 0) (lit "time (s)") (fls [1; 2; 4]%Z) [fls [10; 20; 30]%Z].
Example C09_example_comments :
  comes_back opts_whole C1001 (dict_of (items1001 s1001sp)) (items1001 (norm1001 (fun x => x) s1001sp)) /\
  r1_common (norm1001 (fun x => x) s1001sp)
    = mkCommon (lit "De Witt, B.") (lit "BADC") (lit "Sonde") (lit "Test") 1 1 (1969, 1, 1)%Z (2002, 10, 31)%Z
        [lit "Variable temp: temp (K)"; lit "units = K"] [[]].
Proof.
  split; [| reflexivity].
  eapply C09_roundtrip_1001; [apply plain_whole|split; [unfold common_ok; cbn; ok|cbn; ok]|apply dict_of_has; nodup|reflexivity].
Qed.

(** * C10 *)
Theorem C10_roundtrip_1010 : forall num (Num : NumOps num) (o : opts num) g (r : r1010 num) (d : na num) nlh,
  plain_opts o g -> ok1010 r -> has d (items1010 r) -> attr d kNLHEAD = PInt nlh ->
  comes_back o C1010 d (items1010 (norm1010 g r)).
Proof. intros num Num o g r d nlh (H1 & H2 & H3 & H4). intros. eapply rt1010; eauto. Qed.
Example C10_example : comes_back opts_whole C1010 (dict_of (items1010 s1010)) (items1010 (norm1010 (fun x => x) s1010)).
Proof.
  eapply C10_roundtrip_1010; [apply plain_whole|apply s1010_ok|apply dict_of_has; nodup|reflexivity].
Qed.

(** * C11 *)
Theorem C11_roundtrip_1020 : forall num (Num : NumOps num) (o : opts num) g (r : r1020 num) (d : na num) nlh,
  plain_opts o g -> ok1020 r -> has d (items1020 r) -> attr d kNLHEAD = PInt nlh ->
  comes_back o C1020 d (items1020 (norm1020 g r)).
Proof. intros num Num o g r d nlh (H1 & H2 & H3 & H4). intros. eapply rt1020; eauto. Qed.
Example C11_example : comes_back opts_whole C1020 (dict_of (items1020 s1020)) (items1020 (norm1020 (fun x => x) s1020)).
Proof.
  eapply C11_roundtrip_1020; [apply plain_whole|apply s1020_ok|apply dict_of_has; nodup|reflexivity].
Qed.

(** * C12 *)
(** [length (r4_nx r) = 1]: one bounded axis. *)
Theorem C12_roundtrip_2010 : forall num (Num : NumOps num) (o : opts num) g (r : r2010 num) (d : na num) nlh,
  plain_opts o g -> ok2010 r -> length (r4_nx r) = 1%nat -> has d (items2010 r) -> attr d kNLHEAD = PInt nlh ->
  comes_back o C2010 d (items2010 (norm2010 g r)).
Proof.
  intros num Num o g r d nlh (H1 & H2 & H3 & H4) Hr Hl Hh Hn. eapply rt2010; eauto.
  - left. auto.
  - pose proof Hr as (_ & _ & _ & _ & _ & K & _). rewrite Hl in K. unfold palindromic_def.
    destruct (r4_axes r) as [|a [|b l]]; try discriminate. reflexivity.
Qed.
Example C12_example : comes_back opts_whole C2010 (dict_of (items2010 s2010)) (items2010 (norm2010 (fun x => x) s2010)).
Proof.
  eapply C12_roundtrip_2010; [apply plain_whole|apply s2010_ok|reflexivity|apply dict_of_has; nodup|reflexivity].
Qed.

(** * C13 *)
(** Missing from the full claim: the numbers of listed axis values must be the
    same in reverse order (for example all equal).  The reader pairs the lines
    of axis values with the reversed NXDEF. *)
Theorem C13_roundtrip_3010_4010_partial : forall num (Num : NumOps num) (o : opts num) g (r : r2010 num) (d : na num) nlh c,
  plain_opts o g -> ok2010 r ->
  (length (r4_nx r) = 2%nat /\ c = C3010 \/ length (r4_nx r) = 3%nat /\ c = C4010) ->
  rev (map (fun a => length (x_def a)) (r4_axes r)) = map (fun a => length (x_def a)) (r4_axes r) ->
  has d (items2010 r) -> attr d kNLHEAD = PInt nlh ->
  comes_back o c d (items2010 (norm2010 g r)).
Proof.
  intros num Num o g r d nlh c (H1 & H2 & H3 & H4) Hr Hl Hp Hh Hn. eapply rt2010; eauto.
  unfold fam. tauto.
Qed.
Example C13_example : comes_back opts_whole C3010 (dict_of (items2010 s3010)) (items2010 (norm2010 (fun x => x) s3010)) /\
  comes_back opts_whole C4010 (dict_of (items2010 s4010)) (items2010 (norm2010 (fun x => x) s4010)).
Proof.
  split.
  - eapply C13_roundtrip_3010_4010_partial; [apply plain_whole|apply s3010_ok|left; auto|reflexivity|apply dict_of_has; nodup|reflexivity].
  - eapply C13_roundtrip_3010_4010_partial; [apply plain_whole|apply s4010_ok|right; auto|reflexivity|apply dict_of_has; nodup|reflexivity].
Qed.
(** A well-formed FFI 3010 dictionary that is written without complaint to a
    file that cannot be read. *)
Theorem C13_roundtrip_3010_refuted : exists (r : r2010 whole) (d : na whole) st e,
  plain_opts opts_whole (fun x => x) /\ ok2010 r /\ length (r4_nx r) = 2%nat /\
  has d (items2010 r) /\ attr d kNLHEAD = PInt 17 /\
  write_body opts_whole C3010 false (mkW [] [] d) = (Ok tt, st) /\
  read_file (num:=whole) (w_file st) 0 = Err e.
Proof.
  exists s3010b, (dict_of (items2010 s3010b)).
  exists (snd (write_body opts_whole C3010 false (mkW [] [] (dict_of (items2010 s3010b))))).
  exists (ENappy E_CouldNotSplit).
  split; [apply plain_whole|]. split; [apply s3010b_ok|]. split; [reflexivity|].
  split; [apply dict_of_has; nodup|]. split; [reflexivity|].
  split; [apply run_pair; vm_compute; reflexivity|vm_compute; reflexivity].
Qed.

(** * C14 *)
(** The first auxiliary variable holds the lengths of the inner axes. *)
Theorem C14_roundtrip_2110 : forall num (Num : NumOps num) (o : opts num) g (r : r2110 num) (d : na num) nlh,
  plain_opts o g -> ok2110 g r -> has d (items2110 r) -> attr d kNLHEAD = PInt nlh ->
  comes_back o C2110 d (items2110 (norm2110 g r)).
Proof. intros num Num o g r d nlh (H1 & H2 & H3 & H4). intros. eapply rt2110; eauto. Qed.
Example C14_example : comes_back opts_whole C2110 (dict_of (items2110 s2110)) (items2110 (norm2110 (fun x => x) s2110)).
Proof.
  eapply C14_roundtrip_2110; [apply plain_whole|apply s2110_ok|apply dict_of_has; nodup|reflexivity].
Qed.

(** * C15 *)
(** Without ignored header lines, and with them: FFI 2160 writes them in front
    of the header. *)
Theorem C15_roundtrip_2160 : forall num (Num : NumOps num) (o : opts num) g (r : r2160 num) (d : na num) nlh,
  plain_opts o g -> ok2160 g r -> has d (items2160 r) -> attr d kNLHEAD = PInt nlh ->
  d kIGN = None \/ d kIGN = Some PNone \/ d kIGN = Some (PList []) ->
  comes_back o C2160 d (items2160 (norm2160 g r)).
Proof. intros num Num o g r d nlh (H1 & H2 & H3 & H4). intros. eapply rt2160; eauto. Qed.
Theorem C15_lines_2160 : forall num (Num : NumOps num) (o : opts num) g (r : r2160 num) (d : na num) nlh texts,
  plain_opts o g -> ok2160 g r -> has d (items2160 r) -> attr d kNLHEAD = PInt nlh ->
  attr d kIGN = strs_pv texts -> Forall name_ok texts ->
  comes_back_behind o C2160 d texts (items2160 (norm2160 g r)).
Proof. intros num Num o g r d nlh texts (H1 & H2 & H3 & H4). intros. eapply behind2160; eauto. Qed.
Example C15_example : comes_back opts_whole C2160 (dict_of (items2160 s2160)) (items2160 (norm2160 (fun x => x) s2160)).
Proof.
  eapply C15_roundtrip_2160; [apply plain_whole|apply s2160_ok|apply dict_of_has; nodup|reflexivity|now left].
Qed.

Definition d2160_lines : na whole := upd (dict_of (items2160 s2160)) kIGN (strs_pv (map lit ["exported 2004-01-14"; "station 7"]%pylit)).
Example C15_lines_example : comes_back_behind opts_whole C2160 d2160_lines (map lit ["exported 2004-01-14"; "station 7"]%pylit) (items2160 (norm2160 (fun x => x) s2160)).
Proof.
  eapply C15_lines_2160; [apply plain_whole|apply s2160_ok| |reflexivity|reflexivity|].
  - intros k v I. unfold d2160_lines. rewrite upd_other; [exact (dict_of_has (items2160 s2160) ltac:(nodup) k v I)|].
    intros <-. revert I. cbn. intuition congruence.
  - ok.
Qed.

(** * C16 *)
(** One primary variable; the steps of the inner axes are whole numbers and are
    listed in DX after its first item (the reader appends them there).
    Missing from the full claim: several primary variables. *)
Theorem C16_roundtrip_2310_partial : forall num (Num : NumOps num) (o : opts num) g (r : r2310 num) (d : na num) nlh,
  plain_opts o g -> ok2310 g r -> has d (items2310 r) -> attr d kNLHEAD = PInt nlh ->
  comes_back o C2310 d (items2310 (norm2310 g r)).
Proof. intros num Num o g r d nlh (H1 & H2 & H3 & H4). intros. eapply rt2310; eauto. Qed.
Example C16_example : comes_back opts_whole C2310 (dict_of (items2310 s2310)) (items2310 (norm2310 (fun x => x) s2310)).
Proof.
  eapply C16_roundtrip_2310_partial; [apply plain_whole|apply s2310_ok|apply dict_of_has; nodup|reflexivity].
Qed.
(** Two variables with the values 1 2 and 3 4 come back with the values 1 3
    and 2 4. *)
Theorem C16_roundtrip_2310_refuted : exists st d',
  write_body opts_whole C2310 false (mkW [] [] d2310_two) = (Ok tt, st) /\
  read_file (num:=whole) (w_file st) 0 = Ok (C2310, d') /\
  attr d2310_two kV = PList [PList [nums_pv (fls [1; 2]%Z)]; PList [nums_pv (fls [3; 4]%Z)]] /\
  attr d' kV = PList [PList [nums_pv (fls [1; 3]%Z)]; PList [nums_pv (fls [2; 4]%Z)]].
Proof.
  destruct (opens_as (w_file (snd (write_body opts_whole C2310 false (mkW [] [] d2310_two)))) C2310 kV
    (PList [PList [nums_pv (fls [1; 3]%Z)]; PList [nums_pv (fls [2; 4]%Z)]])) as (d' & K1 & K2);
    [vm_compute; reflexivity|].
  exists (snd (write_body opts_whole C2310 false (mkW [] [] d2310_two))), d'.
  split; [apply run_pair; vm_compute; reflexivity|]. auto.
Qed.

(** * C17 *)
(** Missing from the full claim: the header numbers (steps, scale factors and
    missing values) must be floating point numbers and the comments must have no
    white space at the ends, as in a dictionary that was read from a file, and the format must print a value that was read
    the way it printed the value that was written ([fmt_stable]). *)
Definition stable_opts {num} `{NumOps num} (o : opts num) (g : num -> num) : Prop :=
  plain_opts o g /\ fmt_stable (o_fmt o) g.

Theorem C17_same_again_partial : forall num (Num : NumOps num) (o : opts num) g (d : na num) nlh,
  stable_opts o g -> attr d kNLHEAD = PInt nlh ->
  (forall r, ok1001 r -> floats1001 r -> has d (items1001 r) -> same_again o C1001 d) /\
  (forall r, ok1010 r -> floats1010 r -> has d (items1010 r) -> same_again o C1010 d) /\
  (forall r, ok1020 r -> floats1020 r -> has d (items1020 r) -> same_again o C1020 d) /\
  (forall r c, (length (r4_nx r) = 1%nat /\ c = C2010 \/ length (r4_nx r) = 2%nat /\ c = C3010 \/
                length (r4_nx r) = 3%nat /\ c = C4010) ->
     rev (map (fun a => length (x_def a)) (r4_axes r)) = map (fun a => length (x_def a)) (r4_axes r) ->
     ok2010 r -> floats2010 r -> has d (items2010 r) -> same_again o c d) /\
  (forall r, ok2110 g r -> floats2110 r -> has d (items2110 r) -> same_again o C2110 d) /\
  (forall r, ok2160 g r -> floats2160 r -> has d (items2160 r) ->
     d kIGN = Some PNone -> same_again o C2160 d) /\
  (forall r texts, ok2160 g r -> floats2160 r -> has d (items2160 r) ->
     attr d kIGN = strs_pv texts -> Forall name_ok texts -> same_behind o (length texts) C2160 d) /\
  (forall r, ok2310 g r -> floats2310 r -> has d (items2310 r) -> same_again o C2310 d).
Proof.
  intros num Num o g d nlh ((H1 & H2 & H3 & H4) & H5) Hn.
  split; [intros; eapply again1001; eauto|]. split; [intros; eapply again1010; eauto|].
  split; [intros; eapply again1020; eauto|].
  split; [intros; eapply again2010; eauto; unfold fam; tauto|].
  split; [intros; eapply again2110; eauto|]. split; [intros; eapply again2160; eauto|].
  split; [intros; eapply same_behind2160; eauto|].
  intros; eapply again2310; eauto.
Qed.
Lemma sample_read : read_comments sample_common.
Proof. split; cbn; repeat constructor; apply trimmedb_ok; reflexivity. Qed.
Lemma stable_whole : stable_opts opts_whole (fun x => x).
Proof. split; [apply plain_whole|apply whole_stable]. Qed.
Example C17_example : same_again opts_whole C1001 (dict_of (items1001 s1001)).
Proof.
  destruct (C17_same_again_partial _ _ _ _ (dict_of (items1001 s1001)) 17%Z stable_whole eq_refl) as (K & _).
  apply (K s1001); [apply s1001_ok|split; [apply sample_read|cbn; ok]|apply dict_of_has; nodup].
Qed.
Example C17_example_2310 : same_again opts_whole C2310 (dict_of (items2310 s2310)).
Proof.
  destruct (C17_same_again_partial _ _ _ _ (dict_of (items2310 s2310)) 17%Z stable_whole eq_refl) as (_ & _ & _ & _ & _ & _ & _ & K).
  apply (K s2310); [apply s2310_ok|split; [apply sample_read|cbn; ok]|apply dict_of_has; nodup].
Qed.
(** Whole-number scale factors are written as 1 and read as 1.0. *)
Theorem C17_same_again_refuted : exists (r : r1001 whole) (d : na whole) st d' st',
  plain_opts opts_whole (fun x => x) /\ fmt_stable (o_fmt opts_whole) (fun x => x) /\
  ok1001 r /\ has d (items1001 r) /\ attr d kNLHEAD = PInt 17 /\
  write_body opts_whole C1001 false (mkW [] [] d) = (Ok tt, st) /\
  read_file (w_file st) 0 = Ok (C1001, d') /\
  write_body opts_whole C1001 false (mkW [] [] d') = (Ok tt, st') /\
  w_file st' <> w_file st.
Proof.
  set (d := dict_of (items1001 s1001i)).
  set (st := snd (write_body opts_whole C1001 false (mkW [] [] d))).
  destruct (again_differs (w_file st) C1001) as (d' & st' & K1 & K2 & K3); [vm_compute; reflexivity|].
  exists s1001i, d, st, d', st'.
  split; [apply plain_whole|]. split; [apply whole_stable|]. split; [apply s1001i_ok|].
  split; [apply dict_of_has; nodup|]. split; [reflexivity|].
  split; [apply run_pair; vm_compute; reflexivity|]. auto.
Qed.

Print Assumptions C09_roundtrip_1001.
Print Assumptions C10_roundtrip_1010.
Print Assumptions C11_roundtrip_1020.
Print Assumptions C12_roundtrip_2010.
Print Assumptions C13_roundtrip_3010_4010_partial.
Print Assumptions C13_roundtrip_3010_refuted.
Print Assumptions C14_roundtrip_2110.
Print Assumptions C15_roundtrip_2160.
Print Assumptions C15_lines_2160.
Print Assumptions C16_roundtrip_2310_partial.
Print Assumptions C16_roundtrip_2310_refuted.
Print Assumptions C17_same_again_partial.
Print Assumptions C17_same_again_refuted.
