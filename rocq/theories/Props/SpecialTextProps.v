(** The lines of the special comments can be anything. *)
From Coq Require Import List NArith ZArith Bool Lia.
From Verif Require Import Py.Str Py.Res Py.Num Model.Dict Model.TextParser Model.CommonUtils Model.NARead
  Spec.SpecialTextSpec Spec.TextSpec Spec.WholeNum Proofs.ReadFrame Proofs.ReadSim Proofs.CommentText Proofs.SpecialText Proofs.ReadData Props.RewriteProps.
Import ListNotations.

Section C155.
Context {num : Type} `{NumOps num}.

(** The special comments of a file that can be opened are NSCOML lines of it, and
    any other lines in their place give the same header with these comments. *)
Theorem C155_open : forall content ignore c (d : na num), openNAFile_r content ignore = Ok (c, d) ->
  exists pre coms rest n, readlines content = pre ++ coms ++ rest /\ attr d kNSCOML = PInt n /\ length coms = Z.to_nat n /\ specials_of d coms /\
    forall content' coms', readlines content' = pre ++ coms' ++ rest -> length coms' = length coms ->
      exists d', openNAFile_r content' ignore = Ok (c, d') /\ same_but_specials d d' /\ specials_of d' coms'.
Proof.
  intros A ignore c d E. unfold openNAFile_r in E. destruct (readFFI A ignore) as [z|] eqn:Ez; cbn [bindR] in E; [|discriminate E].
  destruct (getNAFileClass z) as [c0|] eqn:Eg; cbn [bindR] in E; [|discriminate E].
  destruct (readHeader c0 ignore (mkR (readlines A) na_new)) as [[u st]|] eqn:Eh; cbn [bindR snd] in E; [|discriminate E]. injection E as -> <-.
  destruct (ho_header c ignore _ _ _ _ Eh) as (pre & coms & rest & d0 & n & E1 & Hk & _ & E2 & E3 & E4).
  pose proof (E4 coms rest eq_refl) as Q. rewrite <- E1, Eh in Q. symmetry in Q.
  pose proof (fun k => after_keeps _ _ _ k Q) as Kp. cbn [r_na] in Kp.
  exists pre, coms, rest, n. split; [exact E1|]. split; [unfold attr; rewrite Kp by discriminate; rewrite upd_other by discriminate; exact E2|]. split; [exact E3|].
  split; [unfold specials_of; rewrite Kp by discriminate; apply upd_same|]. intros B coms' EB Hl.
  pose proof (sim_after_specials (mkR rest (upd d0 kSCOM (PList (map (fun l => PStr (strip l)) coms))))
    (mkR rest (upd d0 kSCOM (PList (map (fun l => PStr (strip l)) coms')))) eq_refl) as S.
  match type of S with ?P -> _ => assert (Ag : P) end.
  { intros k Hk'. cbn [r_na]. rewrite !upd_other; [reflexivity|..]; intros X; apply Hk'; rewrite ?X, <- ?X; cbn; tauto. }
  specialize (S Ag). rewrite Q in S. rewrite <- (E4 coms' rest Hl), <- EB in S.
  destruct (readHeader c ignore (mkR (readlines B) na_new)) as [[u' st2]|] eqn:Eh'; [|contradiction]. destruct S as (_ & _ & A1 & _ & A3).
  exists (r_na st2). split.
  - unfold openNAFile_r. assert (F : readFFI (num:=num) B ignore = Ok z) by (rewrite <- Ez; unfold readFFI; rewrite EB, E1, !app_nth1 by lia; reflexivity).
    rewrite F. cbn [bindR]. rewrite Eg. cbn [bindR]. rewrite Eh'. reflexivity.
  - split; [exact A1|]. unfold specials_of. rewrite A3 by (now left). apply upd_same.
Qed.

(** Reading the data as well, when the stated length covers these lines. *)
Theorem C155_read : forall content ignore c (f : na num), read_file content ignore = Ok (c, f) ->
  exists pre coms rest, readlines content = pre ++ coms ++ rest /\ specials_of f coms /\
    forall content' coms' n, attr f kNLHEAD = PInt n -> (Z.of_nat (length pre + length coms) <= n)%Z ->
      readlines content' = pre ++ coms' ++ rest -> length coms' = length coms ->
      exists f', read_file content' ignore = Ok (c, f') /\ same_but_specials f f' /\ specials_of f' coms'.
Proof.
  intros A ignore c f Ef. unfold read_file in Ef. destruct (openNAFile_r A ignore) as [[c0 d]|] eqn:E; cbn [bindR fst snd] in Ef; [|discriminate Ef].
  destruct (C155_open A ignore c0 d E) as (pre & coms & rest & k & E1 & _ & _ & R0 & O). unfold readData in Ef.
  destruct (setupArrays d c0) as [s0|] eqn:Es; cbn [bindR] in Ef; [|discriminate Ef]. destruct (h_int d kNLHEAD) as [m|] eqn:En; cbn [bindR] in Ef; [|discriminate Ef].
  destruct (checkForBlankLines false (slice_from (readlines A) m)) as [ls|] eqn:Ec; cbn [bindR] in Ef; [|discriminate Ef].
  destruct (data_loop d c0 (length ls) ls 0 s0) as [s|] eqn:El; cbn [bindR] in Ef; [|discriminate Ef]. injection Ef as -> <-.
  exists pre, coms, rest. split; [exact E1|].
  split. { unfold specials_of in *. rewrite <- R0. destruct (sp_store d d ltac:(intros ? ?; reflexivity) c s) as (_ & S2). apply S2. now left. }
  intros B coms' n Hs Hn EB Hl. destruct (O B coms' EB Hl) as (d' & E' & Ag & R'). exists (store d' c s).
  assert (m = n) as ->.
  { assert (Q : attr (store d c s) kNLHEAD = attr d kNLHEAD) by (unfold attr; destruct c; reflexivity). rewrite Q in Hs.
    unfold h_int in En. rewrite Hs in En. now injection En. }
  destruct (sp_store d d' Ag c s) as (S1 & S2). split; [|split; [exact S1|unfold specials_of in *; rewrite <- R'; apply S2; now left]].
  unfold read_file. rewrite E'. cbn [bindR fst snd]. unfold readData. rewrite <- (sp_setup d d' Ag), Es. cbn [bindR].
  rewrite <- (sp_int d d' Ag kNLHEAD) by (cbn; intuition discriminate). rewrite En. cbn [bindR].
  replace (slice_from (readlines B) n) with (slice_from (readlines A) n).
  - rewrite Ec. cbn [bindR]. rewrite <- (sp_loop d d' Ag), El. reflexivity.
  - unfold slice_from. destruct (n <? 0)%Z eqn:Eneg; [apply Z.ltb_lt in Eneg; lia|]. rewrite EB, E1, !app_assoc.
    assert (K : forall p q : list str, (length p <= Z.to_nat n)%nat -> skipn (Z.to_nat n) (p ++ q) = skipn (Z.to_nat n - length p) q)
      by (intros p q Hp; rewrite skipn_app, skipn_all2 by exact Hp; reflexivity).
    rewrite !K by (rewrite app_length; lia). rewrite !app_length, Hl. reflexivity.
Qed.
End C155.
Print Assumptions C155_open.
Print Assumptions C155_read.

(** Two special comments, and in their place a number and a line of blanks. *)
Definition special_1001 (a b : str) : str := unlines (map lit
  ["20 1001"; "Jones, A."; "Org"; "Src"; "Mission"; "1 1"; "1999 1 1 2000 2 2"; "0"; "height (m)"; "1"; "1"; "-9"; "temp (K)"; "2"]%pylit
  ++ [a; b] ++ map lit ["3"; "x"; "y"; "z"; "0 280"; "10 281"]%pylit).
Definition said : str := special_1001 (lit "first  "%pylit) (lit "second"%pylit).
Definition other : str := special_1001 (lit "7"%pylit) (lit "   "%pylit).
Definition the_said : na whole := dict_or (read_file said 0).
Definition the_other : na whole := dict_or (read_file other 0).
Example C155_example : read_file (num:=whole) said 0 = Ok (C1001, the_said) /\ read_file (num:=whole) other 0 = Ok (C1001, the_other) /\
  same_but_specials the_said the_other /\ attr the_said kNLHEAD = PInt 20 /\ (Z.of_nat (14 + 2) <= 20)%Z /\
  readlines said = firstn 14 (readlines said) ++ [lit "first  "%pylit ++ nl; lit "second"%pylit ++ nl] ++ skipn 16 (readlines said) /\
  readlines other = firstn 14 (readlines said) ++ [lit "7"%pylit ++ nl; lit "   "%pylit ++ nl] ++ skipn 16 (readlines said) /\
  attr the_said kSCOM = PList [PStr (lit "first"%pylit); PStr (lit "second"%pylit)] /\ attr the_other kSCOM = PList [PStr (lit "7"%pylit); PStr []].
Proof.
  split; [vm_compute; reflexivity|]. split; [vm_compute; reflexivity|].
  split; [|split; [vm_compute; reflexivity|split; [lia|split; [vm_compute; reflexivity|split; [vm_compute; reflexivity|split; vm_compute; reflexivity]]]]].
  intros k Hk. destruct k; try (vm_compute; reflexivity). exfalso. apply Hk. now left.
Qed.
