(** The lines of the normal comments can be anything. *)
From Coq Require Import List NArith ZArith Bool Lia.
From Verif Require Import Py.Str Py.Res Py.Num Model.Dict Model.TextParser Model.CommonUtils Model.NARead
  Spec.CommentTextSpec Spec.TextSpec Spec.WholeNum Proofs.ReadFrame Proofs.CommentText Proofs.ReadData Props.RewriteProps.
Import ListNotations.

Section C154.
Context {num : Type} `{NumOps num}.

(** A file whose header ends ([rest]) before the file does: the normal comments
    are the last lines of the header, and any other lines in their place, with
    any other lines behind the header, give the same header with these comments. *)
Theorem C154_open : forall content ignore c (d : na num) rest,
  openNAFile_r content ignore = Ok (c, d) -> readHeader c ignore (mkR (readlines content) na_new) = Ok (tt, mkR rest d) -> rest <> [] ->
  exists pre coms n, readlines content = pre ++ coms ++ rest /\ attr d kNNCOML = PInt n /\ length coms = Z.to_nat n /\ remarks_of d coms /\
    forall content' coms' rest', readlines content' = pre ++ coms' ++ rest' -> length coms' = length coms ->
      exists d', openNAFile_r content' ignore = Ok (c, d') /\ same_but_remarks d d' /\ remarks_of d' coms'.
Proof.
  intros A ignore c d rest E Eh Hr. destruct (en_header c ignore _ _ _ _ Eh Hr) as (pre & coms & d0 & n & E1 & Hk & E2 & E3 & E4). cbn [r_lines r_na] in *.
  pose proof (E4 coms rest eq_refl) as Q. rewrite <- E1, Eh in Q. injection Q as Q.
  exists pre, coms, n. split; [exact E1|]. split; [rewrite Q; unfold attr; rewrite upd_other by discriminate; exact E2|]. split; [exact E3|].
  split; [unfold remarks_of; now rewrite Q, upd_same|]. intros B coms' rest' EB Hl.
  exists (upd d0 kNCOM (PList (map (fun l => PStr (strip l)) coms'))). split.
  - unfold openNAFile_r, readFFI in E |- *. rewrite EB. rewrite E1 in E. rewrite app_nth1 in E |- * by lia.
    destruct (readItemsFromLine (nth (Z.to_nat ignore) pre []) 2 TInt) as [items|]; cbn [bindR] in E |- *; [|discriminate E].
    destruct (nth_res items 1) as [v|]; cbn [bindR] in E |- *; [|discriminate E]. destruct (as_int v) as [z|]; cbn [bindR] in E |- *; [|discriminate E].
    destruct (getNAFileClass z) as [c0|]; cbn [bindR] in E |- *; [|discriminate E].
    assert (c0 = c) as ->. { destruct (readHeader c0 ignore (mkR (pre ++ coms ++ rest) na_new)) as [x|]; cbn [bindR] in E; [|discriminate E]. now injection E as -> _. }
    rewrite E4 by exact Hl. reflexivity.
  - split; [|unfold remarks_of; now rewrite upd_same]. intros k Hk'. rewrite Q. rewrite !upd_other; [reflexivity|..]; intros X; apply Hk'; rewrite ?X, <- ?X; cbn; tauto.
Qed.

(** Reading the data as well, when the stated length covers the header. *)
Theorem C154_read : forall content ignore c (d f : na num) rest,
  openNAFile_r content ignore = Ok (c, d) -> readHeader c ignore (mkR (readlines content) na_new) = Ok (tt, mkR rest d) -> rest <> [] ->
  (forall n, attr d kNLHEAD = PInt n -> (Z.of_nat (length (readlines content)) - Z.of_nat (length rest) <= n)%Z) ->
  read_file content ignore = Ok (c, f) ->
  exists pre coms, readlines content = pre ++ coms ++ rest /\ remarks_of f coms /\
    forall content' coms', readlines content' = pre ++ coms' ++ rest -> length coms' = length coms ->
      exists f', read_file content' ignore = Ok (c, f') /\ same_but_remarks f f' /\ remarks_of f' coms'.
Proof.
  intros A ignore c d f rest E Eh Hr Hn Ef. destruct (C154_open A ignore c d rest E Eh Hr) as (pre & coms & k & E1 & _ & _ & R0 & O).
  exists pre, coms. split; [exact E1|]. unfold read_file in Ef. rewrite E in Ef. cbn [bindR fst snd] in Ef. unfold readData in Ef.
  destruct (setupArrays d c) as [s0|] eqn:Es; cbn [bindR] in Ef; [|discriminate Ef]. destruct (h_int d kNLHEAD) as [n|] eqn:En; cbn [bindR] in Ef; [|discriminate Ef].
  destruct (checkForBlankLines false (slice_from (readlines A) n)) as [ls|] eqn:Ec; cbn [bindR] in Ef; [|discriminate Ef].
  destruct (data_loop d c (length ls) ls 0 s0) as [s|] eqn:El; cbn [bindR] in Ef; [|discriminate Ef]. injection Ef as <-.
  assert (Nn : attr d kNLHEAD = PInt n) by (unfold h_int in En; destruct (attr d kNLHEAD); try discriminate En; now injection En as ->). specialize (Hn n Nn).
  rewrite E1, !app_length in Hn.
  split. { unfold remarks_of in *. rewrite <- R0. destruct (rk_store d d ltac:(intros ? ?; reflexivity) c s) as (_ & S2). apply S2. now left. }
  intros B coms' EB Hl. destruct (O B coms' rest EB Hl) as (d' & E' & Ag & R'). exists (store d' c s).
  destruct (rk_store d d' Ag c s) as (S1 & S2). split; [|split; [exact S1|unfold remarks_of in *; rewrite <- R'; apply S2; now left]].
  unfold read_file. rewrite E'. cbn [bindR fst snd]. unfold readData. rewrite <- (rk_setup d d' Ag), Es. cbn [bindR].
  rewrite <- (rk_int d d' Ag kNLHEAD) by (cbn; intuition discriminate). rewrite En. cbn [bindR].
  replace (slice_from (readlines B) n) with (slice_from (readlines A) n).
  - rewrite Ec. cbn [bindR]. rewrite <- (rk_loop d d' Ag), El. reflexivity.
  - unfold slice_from. destruct (n <? 0)%Z eqn:Eneg; [apply Z.ltb_lt in Eneg; lia|]. rewrite EB, E1, !app_assoc.
    assert (K : forall p q : list str, (length p <= Z.to_nat n)%nat -> skipn (Z.to_nat n) (p ++ q) = skipn (Z.to_nat n - length p) q)
      by (intros p q Hp; rewrite skipn_app, skipn_all2 by exact Hp; reflexivity).
    rewrite !K by (rewrite app_length; lia). rewrite !app_length, Hl. reflexivity.
Qed.
End C154.
Print Assumptions C154_open.
Print Assumptions C154_read.

(** A comment that looks like a line of data. *)
Definition remark_line : str := lit "0   280 1"%pylit ++ nl.
Definition odd_remark : str := concat (firstn 17 (readlines typed_1001) ++ [remark_line] ++ skipn 18 (readlines typed_1001)).
Fact remark_lines : exists pre com rest, readlines typed_1001 = pre ++ [com] ++ rest /\ readlines odd_remark = pre ++ [remark_line] ++ rest /\ rest <> [] /\
  length pre = 17%nat /\ match readHeader (num:=whole) C1001 0 (mkR (readlines typed_1001) na_new) with Ok (_, st) => r_lines st = rest | Err _ => False end.
Proof.
  exists (firstn 17 (readlines typed_1001)), (nth 17 (readlines typed_1001) []), (skipn 18 (readlines typed_1001)).
  split; [vm_compute; reflexivity|]. split; [vm_compute; reflexivity|]. split; [vm_compute; discriminate|]. split; vm_compute; reflexivity.
Qed.
Fact remark_read : match read_file (num:=whole) typed_1001 0 with
  | Ok (c, f) => c = C1001 /\ attr f kNCOM = PList [PStr (lit "remark"%pylit)] | Err _ => False end.
Proof. vm_compute. split; reflexivity. Qed.
Fact remark_opened : match openNAFile_r (num:=whole) typed_1001 0 with Ok (c, d) => c = C1001 /\ attr d kNLHEAD = PInt 18 | Err _ => False end.
Proof. vm_compute. split; reflexivity. Qed.
Fact remark_text : strip remark_line = lit "0   280 1"%pylit.
Proof. vm_compute. reflexivity. Qed.
Example C154_example : exists d f f' rest,
  openNAFile_r (num:=whole) typed_1001 0 = Ok (C1001, d) /\ readHeader C1001 0 (mkR (readlines typed_1001) na_new) = Ok (tt, mkR rest d) /\ rest <> [] /\
  attr d kNLHEAD = PInt 18 /\ (Z.of_nat (length (readlines typed_1001)) - Z.of_nat (length rest) = 18)%Z /\
  read_file (num:=whole) typed_1001 0 = Ok (C1001, f) /\ attr f kNCOM = PList [PStr (lit "remark"%pylit)] /\
  read_file (num:=whole) odd_remark 0 = Ok (C1001, f') /\ same_but_remarks f f' /\ attr f' kNCOM = PList [PStr (lit "0   280 1"%pylit)].
Proof.
  pose proof remark_lines as EL. pose proof remark_read as ER. pose proof remark_opened as EO. pose proof remark_text as ET. revert EL ER EO ET.
  generalize typed_1001, odd_remark, remark_line, (lit "remark"%pylit), (lit "0   280 1"%pylit).
  intros A B new told tnew (pre & com & rest & E1 & E2 & Hr & Hp & EH) ER EO ET.
  destruct (openNAFile_r (num:=whole) A 0) as [[c d]|] eqn:Eo; [|contradiction]. destruct EO as (-> & Hn).
  destruct (read_file (num:=whole) A 0) as [[c f]|] eqn:Ef; [|contradiction]. destruct ER as (-> & Hc).
  destruct (readHeader (num:=whole) C1001 0 (mkR (readlines A) na_new)) as [[[] [ls d0]]|] eqn:Eh; [|contradiction]. cbn [r_lines] in EH. subst ls.
  assert (d0 = d) as ->.
  { unfold openNAFile_r in Eo. destruct (readFFI (num:=whole) A 0) as [z|]; cbn [bindR] in Eo; [|discriminate Eo]. destruct (getNAFileClass z) as [c|]; cbn [bindR] in Eo; [|discriminate Eo].
    destruct (readHeader (num:=whole) c 0 (mkR (readlines A) na_new)) as [r|] eqn:E; cbn [bindR] in Eo; [|discriminate Eo]. injection Eo as -> <-.
    rewrite Eh in E. now injection E as <-. }
  assert (L : (Z.of_nat (length (readlines A)) - Z.of_nat (length rest) = 18)%Z) by (rewrite E1, !app_length, Hp; cbn [length]; lia).
  assert (Hd : forall n, attr d kNLHEAD = PInt n -> (Z.of_nat (length (readlines A)) - Z.of_nat (length rest) <= n)%Z)
    by (intros n Q; rewrite Hn in Q; injection Q as <-; lia).
  destruct (C154_read A 0 C1001 d f rest Eo Eh Hr Hd Ef) as (pre' & coms & E1' & R0 & O).
  assert (coms = [com] /\ pre' = pre) as (-> & ->).
  { unfold remarks_of in R0. unfold attr in Hc. rewrite R0 in Hc. injection Hc as Hc.
    destruct coms as [|x [|y coms]]; cbn [map] in Hc; try discriminate Hc. rewrite E1 in E1'. rewrite !app_assoc in E1'. apply app_inv_tail, app_inj_tail in E1' as (-> & ->). auto. }
  destruct (O B [new] E2 eq_refl) as (f' & Ef' & S & R'). exists d, f, f', rest.
  do 9 (split; [first [assumption | reflexivity]|]). unfold attr. unfold remarks_of in R'. rewrite R'. cbn [map]. now rewrite ET.
Qed.
