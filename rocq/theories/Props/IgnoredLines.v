(** C105: lines in front of the header, which were skipped on reading
    ([ignored_header_lines], na_file.py 41-75, 190-222), when a dictionary is
    written. *)
From Coq Require Import List NArith ZArith Bool Lia.
From Verif Require Import Py.Str Py.Res Py.Num Model.Dict Model.TextParser Model.CommonUtils Model.NAWrite Model.NARead
  Spec.TextSpec Spec.Records Spec.RoundTripSpec Spec.RewriteSpec Spec.IgnoredSpec Spec.Samples Spec.WholeNum Spec.RecordSamples
  Spec.CharSpec Spec.WriteSpec Proofs.StrLemmas Proofs.RTText Proofs.RTRead Proofs.HeaderLemmas Proofs.WriteFrame Proofs.WriteSim Proofs.RT1 Proofs.Ignored Proofs.ReadFrame Proofs.ReadFile Proofs.Rewrite Proofs.SampleOk
  Props.WriteProps Props.ReadInvariance Props.RoundTrip Props.RewriteProps.
Import ListNotations.

(** FFI 2160: whatever else is in the dictionary, the lines are written first,
    each with a line feed, and all the rest (also the kind of failure) is as
    without them. *)
Theorem C105_written_2160 : forall num (Num : NumOps num) (o : opts num) (d : na num) texts f h,
  attr d kIGN = strs_pv texts ->
  let with_lines := write_body o C2160 false (mkW f h d) in
  let without_lines := write_body o C2160 false (mkW f h (upd d kIGN (PList []))) in
  fst with_lines = fst without_lines /\ w_head (snd with_lines) = w_head (snd without_lines) /\
  exists rest, w_file (snd without_lines) = f ++ rest /\ w_file (snd with_lines) = f ++ unlines texts ++ rest.
Proof.
  intros num Num o d texts f h E. destruct (without d) as [Ag N].
  destruct (behind_body o f f h h d _ texts Ag E N) as (K1 & _ & K2 & t & K3 & K4).
  cbv zeta. split; [exact K1|]. split; [exact K2|]. exists t. auto.
Qed.

(** C29 with lines: when the header cannot be written, exactly the lines have
    been written; otherwise the complete header stands behind them. *)
Theorem C29_lines_2160 : forall num (Num : NumOps num) (o : opts num) (d : na num) texts f h r st,
  attr d kIGN = strs_pv texts -> write_body o C2160 false (mkW f h d) = (r, st) ->
  (exists e, r = Err e /\ w_file st = f ++ unlines texts) \/
  (exists s1 data, writeHeader o C2160 (mkW f [] d) = (Ok tt, s1) /\ w_file st = w_file s1 ++ data /\
     exists ann ffi n body, w_file s1 = f ++ unlines texts ++ (ann ++ dec_of_nat n ++ o_delim o ++ ffi ++ nl) ++ body /\
       n = S (count_chr c_nl body)).
Proof.
  intros num Num o d texts f h r st Ei E. unfold write_body, bindW in E. cbv beta iota in E.
  cbn [w_file w_na] in E. destruct (writeHeader o C2160 (mkW f [] d)) as [[[]|e] s1] eqn:E1.
  - right. destruct (dstep_data o C2160 _ _ _ E) as ((t & Et) & _). exists s1, t. split; [reflexivity|]. split; [exact Et|].
    destruct (header_good o C2160 _ _ E1) as (si & Es & _ & ann & ffi & body & n & Ef & _ & _ & _ & Hn).
    unfold ign_step in Es. rewrite (ign_lines f [] d texts Ei) in Es. injection Es as <-. exists ann, ffi, n, body.
    split; [|exact Hn]. rewrite Ef. cbn [w_file]. now rewrite <- !app_assoc.
  - left. injection E as <- <-. exists e. split; [reflexivity|].
    rewrite (header_fail o C2160 _ _ _ E1). unfold ign_step. now rewrite (ign_lines f [] d texts Ei).
Qed.

(** C08 with lines: the data section stands behind the lines and the announced
    number of lines. *)
Theorem C08_lines_2160 : forall num (Num : NumOps num) (o : opts num) (d : na num) texts h st,
  attr d kIGN = strs_pv texts -> Forall one_line texts -> write_body o C2160 false (mkW [] h d) = (Ok tt, st) ->
  ~ In c_nl (o_delim o) -> (forall a, getAnnotation o (lit "NLHEAD_FFI") None = Ok a -> ~ In c_nl a) ->
  exists hdr data ann ffi n,
    w_file st = unlines texts ++ hdr ++ data /\ self_counting (o_delim o) ann ffi hdr n /\
    skipn (length texts + n + lone_cr hdr) (readlines (w_file st)) = readlines data.
Proof.
  intros num Num o d texts h st Ei Ht E Hd Ha.
  destruct (C105_written_2160 _ _ o d texts [] h Ei) as (K1 & _ & rest & K2 & K3). rewrite E in K1, K3. cbn [fst snd app] in K1, K2, K3.
  destruct (write_body o C2160 false (mkW [] h (upd d kIGN (PList [])))) as [r0 st0] eqn:E0. cbn [fst snd] in K1, K2. subst r0 rest.
  destruct (C08_data_found_partial o C2160 h _ st0 E0 ltac:(right; right; reflexivity) Hd Ha) as (hdr & data & ann & ffi & n & s1 & F & SC & _ & _ & Sk).
  exists hdr, data, ann, ffi, n. rewrite K3, F. split; [reflexivity|]. split; [exact SC|].
  rewrite readlines_behind by exact Ht. rewrite F in Sk. rewrite <- Sk, <- Nat.add_assoc, skipn_app.
  replace (length (nls texts)) with (length texts) by (unfold nls; now rewrite map_length).
  rewrite (skipn_all2 (nls texts)) by (unfold nls; rewrite map_length; apply Nat.le_add_r). cbn [app]. f_equal. rewrite Nat.add_comm. apply Nat.add_sub.
Qed.

(** A file of FFI 2160 that was read behind any number of lines and is tidy
    (C100) is written with them, and comes back with them.  Missing from the full
    claim: the other formats, for which it is false. *)
Theorem C105_kept_partial : forall num (Num : NumOps num) (o : opts num) g content ignore (d : na num),
  plain_opts o g -> read_file content ignore = Ok (C2160, d) -> tidy g C2160 d ->
  exists texts, d kIGN = Some (strs_pv texts) /\ length texts = Z.to_nat ignore /\
    forall h, exists file hdr d2 d', write_body o C2160 false (mkW [] h d) = (Ok tt, mkW (unlines texts ++ file) hdr d2) /\
      read_file (unlines texts ++ file) (Z.of_nat (length texts)) = Ok (C2160, d') /\ d' kIGN = d kIGN /\
      forall k, k <> kNLHEAD -> d' k = option_map (rewritten g k) (d k).
Proof.
  intros num Num o g content ignore d P R T. destruct (lines_read _ _ _ R) as (texts & E & C).
  assert (L : length texts = Z.to_nat ignore).
  { destruct (read_file_inv _ _ _ _ R) as (h & line & Hh & _ & Fr & _). destruct (hr_common _ _ _ _ Hh) as (ffi' & nlh' & M).
    destruct (mr_ign _ _ _ _ _ M) as (l & El & _ & Ll). rewrite Fr in E by (cbn; intuition discriminate). rewrite El in E.
    injection E as ->. now rewrite map_length in Ll. }
  exists texts. split; [exact E|]. split; [exact L|]. intros h.
  destruct (C100_rewrites_partial _ _ _ _ _ _ _ _ P R T) as [K _].
  assert (Ek : kept_ahead C2160 d = map PStr texts) by (unfold kept_ahead; now rewrite E).
  unfold rewrites in K. cbv zeta in K. rewrite Ek, map_length in K. destruct (K h) as (file & hdr & d2 & d' & W & R' & Hk & _ & Hi).
  assert (Ea : attr d kIGN = strs_pv texts) by (unfold attr; now rewrite E).
  destruct (C105_written_2160 _ _ o d texts [] h Ea) as (_ & _ & rest & _ & Ef).
  rewrite W in Ef. cbn [snd w_file app] in Ef. subst file.
  exists rest, hdr, d2, d'. split; [exact W|]. split; [exact R'|]. split; [now rewrite Hi, E|].
  intros k N. destruct (key_beq k kIGN) eqn:Ek'; [|apply Hk; [exact N|intros ->; discriminate]].
  apply key_beq_true in Ek'. subst k. rewrite Hi, E. reflexivity.
Qed.

(** All other formats, and files without header: the text does not depend on
    the lines. *)
Theorem C105_not_written : forall num (Num : NumOps num) (o : opts num) c nh (d : na num) v f h,
  c <> C2160 \/ nh = true ->
  let x := write_body o c nh (mkW f h d) in let y := write_body o c nh (mkW f h (upd d kIGN v)) in
  fst x = fst y /\ w_file (snd x) = w_file (snd y) /\ w_head (snd x) = w_head (snd y).
Proof.
  intros num Num o c nh d v f h Hc. pose proof (other_body o c nh Hc) as K.
  destruct (K (mkW f h d) (mkW f h (upd d kIGN v))) as (K1 & (_ & K2) & t & K3 & K4).
  { split; [|reflexivity]. intros k Hk. destruct k; try reflexivity; discriminate. }
  cbv zeta. split; [exact K1|]. split; [now rewrite K3, K4|]. now apply K2.
Qed.

(** So a line in front of a 1001 file is lost when it is written again. *)
Definition ahead_1001 : str := lit "exported 2004-01-14" ++ nl ++ typed_1001.
Theorem C105_refuted : exists content (d : na whole) st d',
  read_file content 1 = Ok (C1001, d) /\ d kIGN = Some (strs_pv [lit "exported 2004-01-14"]) /\
  write_body opts_whole C1001 false (mkW [] [] d) = (Ok tt, st) /\
  read_file (w_file st) 0 = Ok (C1001, d') /\ d' kIGN = Some (PList (num:=whole) []) /\ (exists e, read_file (num:=whole) (w_file st) 1 = Err e).
Proof.
  exists ahead_1001, (dict_or (read_file ahead_1001 1)), (snd (write_body opts_whole C1001 false (mkW [] [] (dict_or (read_file ahead_1001 1))))),
    (dict_or (read_file (w_file (snd (write_body opts_whole C1001 false (mkW [] [] (dict_or (read_file ahead_1001 1)))))) 0)).
  repeat (split; [vm_compute; reflexivity|]). eexists. vm_compute. reflexivity.
Qed.

(** A 2160 file behind two lines, the second one empty; a dictionary with a line
    whose other content is not a dictionary of this kind at all. *)
Example C105_kept_example : exists d : na whole, read_file ahead_2160 2 = Ok (C2160, d) /\ tidy (fun x => x) C2160 d /\ d kIGN = Some (strs_pv [lit "exported 2004-01-14"; []]).
Proof. 
  destruct C100_example_ahead as (d & R & T & _ & _ & K). exists d. split; [exact R|]. split; [exact T|].
  unfold kept_ahead in K. destruct (lines_read _ _ _ R) as (texts & E & _). rewrite E in *. unfold strs_pv in *. now rewrite K.
Qed.
Example C105_written_example : w_file (snd (write_body opts_whole C2160 false (mkW [] [] (upd na_empty kIGN (strs_pv [lit "a"; lit "b"]))))) = unlines [lit "a"; lit "b"].
Proof. vm_compute. reflexivity. Qed.

(** The dictionary of C15 with its two lines; without NV only the lines are
    written. *)
Example C08_lines_example : attr d2160_lines kIGN = strs_pv (map lit ["exported 2004-01-14"; "station 7"]%pylit) /\
  Forall one_line (map lit ["exported 2004-01-14"; "station 7"]%pylit) /\ fst (write_body opts_whole C2160 false (mkW [] [] d2160_lines)) = Ok tt.
Proof. split; [reflexivity|]. split; [repeat constructor; apply name_ok_of; reflexivity|]. vm_compute. reflexivity. Qed.
Example C29_lines_example : exists e st, write_body opts_whole C2160 false (mkW [] [] (upd d2160_lines kNV PNone)) = (Err e, st) /\
  w_file st = unlines (map lit ["exported 2004-01-14"; "station 7"]%pylit).
Proof. eexists _, _. split; [vm_compute; reflexivity|]. vm_compute. reflexivity. Qed.

Print Assumptions C105_written_2160.
Print Assumptions C29_lines_2160.
Print Assumptions C08_lines_2160.
Print Assumptions C105_kept_partial.
Print Assumptions C105_not_written.
Print Assumptions C105_refuted.
