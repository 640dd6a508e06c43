(** The lines of the names of the variables can be anything. *)
From Coq Require Import List NArith ZArith Bool Lia.
From Verif Require Import Py.Str Py.Res Py.Num Model.Dict Model.TextParser Model.CommonUtils Model.NARead
  Spec.NameTextSpec Spec.TextSpec Spec.WholeNum Proofs.ReadFrame Proofs.ReadSim Proofs.CommentText Proofs.NameText Proofs.ReadData Props.RewriteProps.
Import ListNotations.

Section C156.
Context {num : Type} `{NumOps num}.

(** The names of the variables of a file that can be opened are NV lines of it, and
    any other lines in their place give the same header with these names. *)
Theorem C156_open : forall content ignore c (d : na num), openNAFile_r content ignore = Ok (c, d) ->
  exists pre lns rest n, readlines content = pre ++ lns ++ rest /\ attr d kNV = PInt n /\ length lns = Z.to_nat n /\ titles_of d lns /\
    forall content' lns', readlines content' = pre ++ lns' ++ rest -> length lns' = length lns ->
      exists d', openNAFile_r content' ignore = Ok (c, d') /\ same_but_titles d d' /\ titles_of d' lns'.
Proof.
  intros A ignore c d E. unfold openNAFile_r in E. destruct (readFFI A ignore) as [z|] eqn:Ez; cbn [bindR] in E; [|discriminate E].
  destruct (getNAFileClass z) as [c0|] eqn:Eg; cbn [bindR] in E; [|discriminate E].
  destruct (readHeader c0 ignore (mkR (readlines A) na_new)) as [[u st]|] eqn:Eh; cbn [bindR snd] in E; [|discriminate E]. injection E as -> <-.
  destruct (ni_header c ignore _ _ _ _ Eh) as (pre & coms & rest & d0 & n & tail & E1 & Hk & _ & E2 & E3 & Et & E4).
  destruct (E4 coms rest eq_refl) as (vs & V1 & Q). rewrite <- E1, Eh in Q. symmetry in Q.
  pose proof (Et (mkR rest (upd d0 kVNAME (PList vs))) (mkR rest (upd d0 kVNAME (PList vs))) eq_refl ltac:(intros ? ?; reflexivity)) as S0.
  rewrite Q in S0. destruct S0 as (_ & _ & _ & Kp & _). cbn [r_na] in Kp.
  exists pre, coms, rest, n. split; [exact E1|]. split; [unfold attr; rewrite Kp by (right; now left); rewrite upd_other by discriminate; exact E2|]. split; [exact E3|].
  split; [exists vs; split; [rewrite Kp by (now left); apply upd_same|exact V1]|]. intros B coms' EB Hl. destruct (E4 coms' rest Hl) as (vs' & V1' & Q').
  pose proof (Et (mkR rest (upd d0 kVNAME (PList vs))) (mkR rest (upd d0 kVNAME (PList vs'))) eq_refl) as S.
  match type of S with ?P -> _ => assert (Ag : P) end.
  { intros k Hk'. cbn [r_na]. rewrite !upd_other; [reflexivity|..]; intros X; apply Hk'; rewrite ?X, <- ?X; cbn; tauto. }
  specialize (S Ag). rewrite Q in S. rewrite <- Q', <- EB in S.
  destruct (readHeader c ignore (mkR (readlines B) na_new)) as [[u' st2]|] eqn:Eh'; [|contradiction]. destruct S as (_ & _ & A1 & A2 & A3). cbn [r_na] in A2, A3.
  exists (r_na st2). split.
  - unfold openNAFile_r. assert (F : readFFI (num:=num) B ignore = Ok z) by (rewrite <- Ez; unfold readFFI; rewrite EB, E1, !app_nth1 by lia; reflexivity).
    rewrite F. cbn [bindR]. rewrite Eg. cbn [bindR]. rewrite Eh'. reflexivity.
  - split; [|exists vs'; split; [rewrite A3 by (now left); apply upd_same|exact V1']].
    intros k Hk'. destruct (key_beq k kNV) eqn:Ek.
    + assert (k = kNV) as -> by (destruct k; try discriminate Ek; reflexivity). rewrite A2, A3 by (right; now left). now rewrite !upd_other by discriminate.
    + apply A1. intros [<-|[<-|[]]]; [apply Hk'; now left|discriminate Ek].
Qed.

(** Reading the data as well, when the stated length covers these lines. *)
Theorem C156_read : forall content ignore c (f : na num), read_file content ignore = Ok (c, f) ->
  exists pre lns rest, readlines content = pre ++ lns ++ rest /\ titles_of f lns /\
    forall content' lns' n, attr f kNLHEAD = PInt n -> (Z.of_nat (length pre + length lns) <= n)%Z ->
      readlines content' = pre ++ lns' ++ rest -> length lns' = length lns ->
      exists f', read_file content' ignore = Ok (c, f') /\ same_but_titles f f' /\ titles_of f' lns'.
Proof.
  intros A ignore c f Ef. unfold read_file in Ef. destruct (openNAFile_r A ignore) as [[c0 d]|] eqn:E; cbn [bindR fst snd] in Ef; [|discriminate Ef].
  destruct (C156_open A ignore c0 d E) as (pre & coms & rest & k & E1 & _ & _ & R0 & O). unfold readData in Ef.
  destruct (setupArrays d c0) as [s0|] eqn:Es; cbn [bindR] in Ef; [|discriminate Ef]. destruct (h_int d kNLHEAD) as [m|] eqn:En; cbn [bindR] in Ef; [|discriminate Ef].
  destruct (checkForBlankLines false (slice_from (readlines A) m)) as [ls|] eqn:Ec; cbn [bindR] in Ef; [|discriminate Ef].
  destruct (data_loop d c0 (length ls) ls 0 s0) as [s|] eqn:El; cbn [bindR] in Ef; [|discriminate Ef]. injection Ef as -> <-.
  exists pre, coms, rest. split; [exact E1|].
  split. { destruct R0 as (vs & R1 & R2). exists vs. split; [|exact R2]. rewrite <- R1. destruct (nt_store d d ltac:(intros ? ?; reflexivity) c s) as (_ & S2). apply S2. now left. }
  intros B coms' n Hs Hn EB Hl. destruct (O B coms' EB Hl) as (d' & E' & Ag & R'). exists (store d' c s).
  assert (m = n) as ->.
  { assert (Q : attr (store d c s) kNLHEAD = attr d kNLHEAD) by (unfold attr; destruct c; reflexivity). rewrite Q in Hs.
    unfold h_int in En. rewrite Hs in En. now injection En. }
  destruct (nt_store d d' Ag c s) as (S1 & S2).
  split; [|split; [exact S1|destruct R' as (vs & R1 & R2); exists vs; split; [rewrite <- R1; apply S2; now left|exact R2]]].
  unfold read_file. rewrite E'. cbn [bindR fst snd]. unfold readData. rewrite <- (nt_setup d d' Ag), Es. cbn [bindR].
  rewrite <- (nt_int d d' Ag kNLHEAD) by (cbn; intuition discriminate). rewrite En. cbn [bindR].
  replace (slice_from (readlines B) n) with (slice_from (readlines A) n).
  - rewrite Ec. cbn [bindR]. rewrite <- (nt_loop d d' Ag), El. reflexivity.
  - unfold slice_from. destruct (n <? 0)%Z eqn:Eneg; [apply Z.ltb_lt in Eneg; lia|]. rewrite EB, E1, !app_assoc.
    assert (K : forall p q : list str, (length p <= Z.to_nat n)%nat -> skipn (Z.to_nat n) (p ++ q) = skipn (Z.to_nat n - length p) q)
      by (intros p q Hp; rewrite skipn_app, skipn_all2 by exact Hp; reflexivity).
    rewrite !K by (rewrite app_length; lia). rewrite !app_length, Hl. reflexivity.
Qed.
End C156.
Print Assumptions C156_open.
Print Assumptions C156_read.

(** Two names, and in their place a number and a line of blanks. *)
Definition named_1001 (a b : str) : str := unlines (map lit
  ["17 1001"; "Jones, A."; "Org"; "Src"; "Mission"; "1 1"; "1999 1 1 2000 2 2"; "0"; "height (m)"; "2"; "1 1"; "-9 -9"]%pylit
  ++ [a; b] ++ map lit ["0"; "1"; "x"; "0 280 1"; "10 281 2"]%pylit).
Definition named : str := named_1001 (lit "temp (K)  {T}"%pylit) (lit "ozone"%pylit).
Definition renamed : str := named_1001 (lit "7"%pylit) (lit "   "%pylit).
Definition the_named : na whole := dict_or (read_file named 0).
Definition the_renamed : na whole := dict_or (read_file renamed 0).
Example C156_example : read_file (num:=whole) named 0 = Ok (C1001, the_named) /\ read_file (num:=whole) renamed 0 = Ok (C1001, the_renamed) /\
  same_but_titles the_named the_renamed /\ attr the_named kNLHEAD = PInt 17 /\ (Z.of_nat (12 + 2) <= 17)%Z /\
  readlines named = firstn 12 (readlines named) ++ [lit "temp (K)  {T}"%pylit ++ nl; lit "ozone"%pylit ++ nl] ++ skipn 14 (readlines named) /\
  readlines renamed = firstn 12 (readlines named) ++ [lit "7"%pylit ++ nl; lit "   "%pylit ++ nl] ++ skipn 14 (readlines named) /\
  attr the_named kVNAME = PList [PStr (lit "temp (K)"%pylit); PStr (lit "ozone"%pylit)] /\ attr the_renamed kVNAME = PList [PStr (lit "7"%pylit); PStr []].
Proof.
  split; [vm_compute; reflexivity|]. split; [vm_compute; reflexivity|].
  split; [|split; [vm_compute; reflexivity|split; [lia|split; [vm_compute; reflexivity|split; [vm_compute; reflexivity|split; vm_compute; reflexivity]]]]].
  intros k Hk. destruct k; try (vm_compute; reflexivity). exfalso. apply Hk. now left.
Qed.
