(** C65, C66: what reading does not depend on. *)
From Coq Require Import List NArith ZArith Bool Lia Floats.SpecFloat.
From Verif Require Import Py.Str Py.Res Py.Num Model.Dict Model.TextParser Model.CommonUtils Model.NARead
  Spec.Records Spec.LineSpec Proofs.StrLemmas Proofs.TextLemmas Proofs.HeaderLemmas Proofs.RTText Proofs.RTRead
  Proofs.ReadFrame Proofs.ReadSim Proofs.ReadFile Spec.Binary64 Spec.Samples.
Import ListNotations.

Section C66.
Context {num : Type} `{NumOps num}.
(** Reading depends on the lines only. *)
Lemma same_lines a b ignore : readlines a = readlines b -> read_file (num:=num) a ignore = read_file b ignore.
Proof.
  intros E. unfold read_file, openNAFile_r, readFFI, readData. rewrite E. reflexivity.
Qed.
Lemma univ_with_ends e s : e = [c_cr; c_nl] \/ e = [c_cr] -> ~ In c_cr s -> univ_newlines (with_ends e s) = s.
Proof.
  intros He. induction s as [|c s IH]; intros Hc; [reflexivity|].
  assert (Hs : ~ In c_cr s) by (intros K; apply Hc; now right). specialize (IH Hs).
  unfold with_ends in *. cbn [flat_map]. destruct (N.eqb_spec c c_nl) as [->|Hn].
  - destruct He as [-> | ->]; cbn [app univ_newlines].
    + change (c_cr =? c_cr)%N with true. cbn [starts_nl app]. change (c_nl =? c_nl)%N with true. cbn [univ_newlines].
      change (c_nl =? c_cr)%N with false. cbn iota. now rewrite IH.
    + change (c_cr =? c_cr)%N with true. cbv iota.
      destruct (starts_nl (flat_map (fun c => if (c =? c_nl)%N then [c_cr] else [c]) s)) eqn:Es; [|now rewrite IH].
      exfalso. destruct s as [|x s]; [discriminate|]. cbn [flat_map] in Es. destruct (N.eqb_spec x c_nl) as [->|Hx]; cbn [app starts_nl] in Es.
      * discriminate.
      * apply N.eqb_eq in Es. contradiction.
  - cbn [app univ_newlines]. destruct (N.eqb_spec c c_cr) as [->|_]; [exfalso; apply Hc; now left|]. now rewrite IH.
Qed.
(** C66: a text file with the line ends of Windows or of old Macintosh systems is
    read as the file with newlines. *)
Theorem C66_line_ends : forall content ignore, ~ In c_cr content ->
  read_file (num:=num) (with_ends [c_cr; c_nl] content) ignore = read_file content ignore /\
  read_file (num:=num) (with_ends [c_cr] content) ignore = read_file content ignore.
Proof.
  intros content ignore Hc. split; apply same_lines; unfold readlines; rewrite univ_with_ends by auto; now rewrite readlines_no_cr by (apply mem_chr_false; exact Hc).
Qed.
End C66.
Print Assumptions C66_line_ends.

Section C65.
Context {num : Type} `{NumOps num}.
Local Notation na := (na num).

Lemma readlines_behind pre content : Forall one_line pre -> readlines (unlines pre ++ content) = nls pre ++ readlines content.
Proof.
  intros Hp. unfold readlines. rewrite univ_newlines_app by apply ends_nl_unlines.
  rewrite lines_app by apply univ_newlines_ends, ends_nl_unlines. f_equal. now apply readlines_file.
Qed.
Lemma in_rstrip c s : In c (rstrip s) -> In c s.
Proof. intros Hi. destruct (rstrip_by_decomp is_space s) as (b & _ & E & _). rewrite E. apply in_app_iff. now left. Qed.
Lemma in_strip c s : In c (strip s) -> In c s.
Proof.
  unfold strip. intros Hi. apply in_rstrip in Hi. destruct (lstrip_by_decomp is_space s) as (a & _ & E & _). rewrite E. apply in_app_iff. now right.
Qed.
Definition shown (l : str) : str := no_quotes_sub (strip (right_strip_braces (l ++ nl))).
Lemma ignored_read pre : forall rest (d : na),
  read_ignored (length pre) (mkR (nls pre ++ rest) d) = Ok (map (fun l => PStr (shown l)) pre, mkR rest d).
Proof.
  induction pre as [|l pre IH]; intros rest d; [reflexivity|].
  cbn [length read_ignored nls map app]. unfold item_line, bindRd, readline. cbn [r_lines r_na].
  unfold liftR, readItemFromLine. cbn [conv]. fold (nls pre). rewrite IH. reflexivity.
Qed.
Lemma shown_plain l : plain_line l -> shown l = strip l.
Proof.
  intros [Hb H1]. unfold shown.
  assert (right_strip_braces (l ++ nl) = l ++ nl) as ->.
  { unfold right_strip_braces. destruct (rev (rstrip (l ++ nl))) as [|c r] eqn:E; [reflexivity|].
    destruct (N.eqb_spec c c_rbrace) as [->|_]; [|reflexivity]. exfalso.
    assert (Hin : In c_rbrace (rstrip (l ++ nl))) by (apply in_rev; rewrite E; now left).
    apply in_rstrip in Hin. apply in_app_iff in Hin as [Hin|[Hin|[]]]; [contradiction|discriminate]. }
  rewrite strip_app_sp by reflexivity.
  unfold no_quotes_sub. destruct (strip l) as [|c t] eqn:E; [reflexivity|].
  destruct (last_chr t) as [e|] eqn:El.
  - destruct (N.eqb_spec e 1) as [->|_]; [exfalso|rewrite andb_false_r; reflexivity].
    apply H1. apply in_strip. rewrite E. right. unfold last_chr in El. apply in_rev. destruct (rev t); [discriminate|]. injection El as ->. now left.
  - rewrite andb_false_r. reflexivity.
Qed.

Lemma shown_name t : name_ok t -> shown t = t.
Proof.
  intros Hn. pose proof (name_item (num:=num) t Hn) as K. unfold readItemFromLine in K. cbn [conv] in K. injection K as K. exact K.
Qed.

Theorem C65_ignored_lines : forall (pre : list str) (content : str), Forall one_line pre ->
  (forall c h n, openNAFile_r (num:=num) content 0 = Ok (c, h) -> h kNLHEAD = Some (PInt n) -> (0 <= n)%Z) ->
  match read_file (num:=num) content 0, read_file (num:=num) (unlines pre ++ content) (Z.of_nat (length pre)) with
  | Ok (c, d), Ok (c', d') =>
      c' = c /\ (forall k, k <> kIGN -> k <> kNLHEAD -> d' k = d k) /\
      (exists n, d kNLHEAD = Some (PInt n) /\ d' kNLHEAD = Some (PInt (n + Z.of_nat (length pre)))) /\
      (exists texts, d' kIGN = Some (PList (map PStr texts)) /\ Forall2 (fun l t => (plain_line l -> t = strip l) /\ (name_ok l -> t = l)) pre texts)
  | Err e, Err e' => e' = e
  | _, _ => False
  end.
Proof.
  intros pre content Hp Hneg.
  assert (Hl : readlines (unlines pre ++ content) = nls pre ++ readlines content) by now apply readlines_behind.
  assert (Hln : length (nls pre) = length pre) by (unfold nls; now rewrite map_length).
  assert (Hf : readFFI (num:=num) (unlines pre ++ content) (Z.of_nat (length pre)) = readFFI (num:=num) content 0).
  { unfold readFFI. rewrite Hl, Nat2Z.id, app_nth2 by lia. now rewrite Hln, Nat.sub_diag. }
  assert (Ho : match openNAFile_r (num:=num) content 0, openNAFile_r (num:=num) (unlines pre ++ content) (Z.of_nat (length pre)) with
    | Ok (c, h), Ok (c', h') => c' = c /\ ag [kIGN; kNLHEAD] h h' /\
        (exists n, h kNLHEAD = Some (PInt n) /\ h' kNLHEAD = Some (PInt (n + Z.of_nat (length pre)))) /\
        h' kIGN = Some (PList (map (fun l => PStr (shown l)) pre))
    | Err e, Err e' => e' = e
    | _, _ => False
    end).
  { unfold openNAFile_r. rewrite Hf, Hl. destruct (readFFI content 0) as [ffi|]; cbn [bindR]; [|reflexivity].
    destruct (getNAFileClass ffi) as [c|]; cbn [bindR]; [|reflexivity].
    destruct (sim_tail (num:=num) c) as (m & Hm & Hs). rewrite !Hm.
    set (s0 := mkR (num:=num) (readlines content) (upd na_new kIGN (PList []))).
    set (s1 := mkR (num:=num) (readlines content) (upd na_new kIGN (PList (map (fun l => PStr (shown l)) pre)))).
    set (go := fun ignore s => match mid s with
                               | Ok (_, t) => match fin ignore t with Ok (_, u) => m u | Err e => Err e end
                               | Err e => Err e end).
    assert (Q0 : bindRd (readCommonHeader 0) (fun _ => m) (mkR (readlines content) na_new) = go 0%Z s0).
    { unfold bindRd at 1. rewrite common_parts. unfold bindRd at 1 2 3. cbn [Z.to_nat read_ignored]. unfold retR, NARead.set at 1. cbn [r_lines r_na]. fold s0.
      unfold go. destruct (mid s0) as [[[] ?]|]; reflexivity. }
    assert (Q1 : bindRd (readCommonHeader (Z.of_nat (length pre))) (fun _ => m) (mkR (nls pre ++ readlines content) na_new) = go (Z.of_nat (length pre)) s1).
    { unfold bindRd at 1. rewrite common_parts. unfold bindRd at 1 2 3. rewrite Nat2Z.id, ignored_read. unfold NARead.set at 1. cbn [r_lines r_na]. fold s1.
      unfold go. destruct (mid s1) as [[[] ?]|]; reflexivity. }
    rewrite Q0, Q1. unfold go. clear Q0 Q1 go.
    assert (A0 : ag [kIGN] (r_na s0) (r_na s1)).
    { intros k Hk. cbn [r_na s0 s1]. rewrite !upd_other; auto; intros <-; apply Hk; now left. }
    pose proof (sim_mid s0 s1 eq_refl A0) as S1. cbv beta iota.
    destruct (mid s0) as [[[] t0]|e0], (mid s1) as [[[] t1]|e1]; try contradiction; [|now subst].
    destruct S1 as (_ & El & Ed & K0 & K1).
    assert (En : r_na t1 kNLHEAD = r_na t0 kNLHEAD) by (symmetry; apply Ed; cbn; intuition discriminate).
    unfold fin, get_int, bindRd, get, liftR, attr. rewrite En.
    destruct (as_int (match r_na t0 kNLHEAD with Some v => v | None => default_attr kNLHEAD end)) as [n|] eqn:Ei; [|reflexivity].
    unfold NARead.set. cbn [r_lines r_na].
    set (u0 := mkR (r_lines t0) (upd (r_na t0) kNLHEAD (PInt (n + 0)))).
    set (u1 := mkR (r_lines t1) (upd (r_na t1) kNLHEAD (PInt (n + Z.of_nat (length pre))))).
    assert (A1 : ag [kIGN; kNLHEAD] (r_na u0) (r_na u1)).
    { intros k Hk. cbn [r_na u0 u1]. rewrite !upd_other by (intros <-; apply Hk; right; now left).
      apply Ed. intros [<-|[]]. apply Hk. now left. }
    specialize (Hs u0 u1 El A1). destruct (m u0) as [[[] v0]|], (m u1) as [[[] v1]|]; try contradiction; cbn [bindR snd]; [|now subst].
    destruct Hs as (_ & _ & Ed' & L0 & L1). split; [reflexivity|]. split; [exact Ed'|]. split.
    - exists n. rewrite L0, L1 by (right; now left). cbn [r_na u0 u1]. rewrite !upd_same, Z.add_0_r. auto.
    - rewrite L1 by now left. cbn [r_na u1]. rewrite upd_other by discriminate. rewrite K1 by now left. cbn [r_na s1]. now rewrite upd_same. }
  unfold read_file.
  destruct (openNAFile_r content 0) as [[c h]|] eqn:E0, (openNAFile_r (unlines pre ++ content) (Z.of_nat (length pre))) as [[c' h']|] eqn:E1;
    try contradiction; cbn [bindR fst snd]; [|now subst].
  destruct Ho as (-> & Ha & (n & N0 & N1) & Hi). pose proof (Hneg _ _ _ eq_refl N0) as Hn.
  assert (Es : slice_from (readlines content) n = slice_from (readlines (unlines pre ++ content)) (n + Z.of_nat (length pre))).
  { rewrite Hl. replace n with (Z.of_nat (Z.to_nat n)) by lia. rewrite <- Nat2Z.inj_add, !slice_from_nat, skipn_app, Hln.
    rewrite (skipn_all2 (nls pre)) by (rewrite Hln; lia). cbn [app]. f_equal. lia. }
  assert (D : match readData h c content, readData h' c (unlines pre ++ content) with
              | Ok d, Ok d' => ag [kIGN; kNLHEAD] d d' | Err e, Err e' => e = e' | _, _ => False end).
  { eapply ag_readData; [exact Ha | unfold attr; now rewrite N0 | unfold attr; now rewrite N1 | exact Es]. }
  destruct (readData h c content) as [d|] eqn:D0, (readData h' c (unlines pre ++ content)) as [d'|] eqn:D1; try contradiction; cbn [bindR]; [|now subst].
  split; [reflexivity|]. split; [|split].
  - intros k K1 K2. symmetry. apply D. cbn. intuition congruence.
  - exists n. rewrite (readData_frame _ _ _ _ D0), (readData_frame _ _ _ _ D1) by (cbn; intuition discriminate). auto.
  - exists (map shown pre). rewrite (readData_frame _ _ _ _ D1) by (cbn; intuition discriminate). rewrite Hi, map_map. split; [reflexivity|].
    assert (Q : forall l, Forall2 (fun l t => (plain_line l -> t = strip l) /\ (name_ok l -> t = l)) l (map shown l)); [|apply Q].
    induction l; constructor; auto. split; intros K; [now apply shown_plain|now apply shown_name].
Qed.
End C65.
Print Assumptions C65_ignored_lines.

(** A small file, read behind two other lines and with other line ends. *)
Definition small_file : str := unlines (map lit ["15 1001"; "A, B"; "Org"; "Src"; "Mission"; "1 1"; "1999 01 01 2000 02 02";
    "0.5"; "time (s)"; "1"; "1"; "-9999"; "temp (K)"; "0"; "0"; "10 20"; "30 40"]%pylit).
Definition two_lines : list str := map lit ["  Received on Monday "; "14 1001"]%pylit.
Example C65_example :
  Forall one_line two_lines /\ Forall plain_line two_lines /\
  (forall c h n, openNAFile_r (num:=b64) small_file 0 = Ok (c, h) -> h kNLHEAD = Some (PInt n) -> (0 <= n)%Z) /\
  match read_file (num:=b64) small_file 0, read_file (num:=b64) (unlines two_lines ++ small_file) 2 with
  | Ok (c, d), Ok (c', d') =>
      c = C1001 /\ c' = C1001 /\ d kX = Some (PList [PNum (bf "10"); PNum (bf "30")]) /\ d' kX = d kX /\
      d' kV = d kV /\ d' kONAME = d kONAME /\ d kNLHEAD = Some (PInt 15) /\ d' kNLHEAD = Some (PInt 17) /\
      d' kIGN = Some (PList (map PStr (map lit ["Received on Monday"; "14 1001"]%pylit)))
  | _, _ => False
  end.
Proof.
  split; [|split; [|split]].
  - repeat constructor; vm_compute; intuition discriminate.
  - repeat constructor; vm_compute; intuition discriminate.
  - assert (G : match openNAFile_r (num:=b64) small_file 0 with
                | Ok (_, h) => match h kNLHEAD with Some (PInt n) => (0 <=? n)%Z = true | _ => False end
                | Err _ => False end) by (vm_compute; reflexivity).
    intros c h n E K. rewrite E, K in G. lia.
  - vm_compute. repeat split.
Qed.
Example C66_example : ~ In c_cr small_file /\
  with_ends [c_cr; c_nl] (lit "a" ++ nl ++ lit "b" ++ nl)%list = (lit "a" ++ [c_cr; c_nl] ++ lit "b" ++ [c_cr; c_nl])%list /\
  match read_file (num:=b64) (with_ends [c_cr] small_file) 0 with
  | Ok (c, d) => c = C1001 /\ d kX = Some (PList [PNum (bf "10"); PNum (bf "30")])
  | _ => False
  end.
Proof.
  split; [apply mem_chr_false; vm_compute; reflexivity|]. split; [vm_compute; reflexivity|]. vm_compute. split; reflexivity.
Qed.
