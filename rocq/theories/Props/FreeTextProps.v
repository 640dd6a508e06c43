(** The lines for author, organisation, source and mission can be anything. *)
From Coq Require Import List NArith ZArith Bool Lia.
From Verif Require Import Py.Str Py.Res Py.Num Model.Dict Model.TextParser Model.CommonUtils Model.NARead
  Spec.FreeTextSpec Spec.TextSpec Spec.WholeNum Proofs.ReadFrame Proofs.ReadSim Proofs.FreeText Proofs.ReadData Props.RewriteProps.
Import ListNotations.

Section C153.
Context {num : Type} `{NumOps num}.

(** The items of these lines, each as the text of its line is read. *)
Definition texts_of (d : na num) (lines : list str) : Prop :=
  Forall2 (fun k l => exists v, readItemFromLine (num:=num) l TStr = Ok v /\ d k = Some v) texts lines.


(** Opening: whatever stands in these lines, the outcome is the same exception or
    the same class and the same header, apart from the texts. *)
Theorem C153_open : forall content content' ignore ign top texts1 texts2 rest,
  length ign = Z.to_nat ignore -> length texts1 = 4%nat -> length texts2 = 4%nat ->
  readlines content = ign ++ top :: texts1 ++ rest -> readlines content' = ign ++ top :: texts2 ++ rest ->
  match openNAFile_r (num:=num) content ignore, openNAFile_r content' ignore with
  | Ok (c, d), Ok (c', d') => c = c' /\ same_but_texts d d' /\ texts_of d texts1 /\ texts_of d' texts2
  | Err e, Err e' => e = e'
  | _, _ => False
  end.
Proof.
  intros A B ignore ign top t1 t2 rest Hl H1 H2 EA EB.
  destruct t1 as [|a1 [|a2 [|a3 [|a4 [|]]]]]; try discriminate H1. destruct t2 as [|b1 [|b2 [|b3 [|b4 [|]]]]]; try discriminate H2. cbn [app] in EA, EB.
  unfold openNAFile_r, readFFI. rewrite EA, EB. rewrite !app_nth2 by lia. rewrite <- Hl, Nat.sub_diag. cbn [nth].
  destruct (readItemsFromLine top 2 TInt) as [items|]; cbn [bindR]; [|reflexivity].
  destruct (nth_res items 1) as [v|]; cbn [bindR]; [|reflexivity]. destruct (as_int v) as [z|]; cbn [bindR]; [|reflexivity].
  destruct (getNAFileClass z) as [c|]; cbn [bindR]; [|reflexivity].
  destruct (sim_rest c) as (m & -> & Sm). destruct (common_texts ignore ign top Hl) as [r Hr]. unfold bindRd. rewrite !Hr.
  destruct r as [d0|]; [|reflexivity].
  assert (S0 : sim texts (bindRd (after_texts (num:=num) ignore) (fun _ => m))) by (apply sim_bind; [apply sim_after|intros; exact Sm]).
  specialize (S0 (mkR rest (with_texts d0 a1 a2 a3 a4)) (mkR rest (with_texts d0 b1 b2 b3 b4)) eq_refl). unfold bindRd in S0.
  match type of S0 with ?P -> _ => assert (Ag : P) end.
  { intros k Hk. unfold with_texts. cbn [r_na]. rewrite !upd_other; [reflexivity|..]; intros Q; apply Hk; rewrite ?Q, <- ?Q; cbn; tauto. }
  specialize (S0 Ag).
  destruct (after_texts ignore (mkR rest (with_texts d0 a1 a2 a3 a4))) as [[u s]|], (after_texts ignore (mkR rest (with_texts d0 b1 b2 b3 b4))) as [[u' s']|].
  2: destruct (m s) as [[]|]; cbn [bindR]; auto; contradiction.
  2: destruct (m s') as [[]|]; cbn [bindR]; auto; contradiction.
  2: exact S0.
  destruct (m s) as [[w s1]|], (m s') as [[w' s1']|]; cbn [bindR snd]; try contradiction; [|exact S0].
  destruct S0 as (_ & _ & A1 & A2 & A3). split; [reflexivity|]. split; [exact A1|].
  split; repeat constructor; eexists; (split; [reflexivity|]); rewrite ?A2, ?A3 by (cbn; tauto); reflexivity.
Qed.

(** Reading the data as well, when the header is at least these lines long. *)
Theorem C153_read : forall content content' ignore ign top texts1 texts2 rest c (d : na num),
  length ign = Z.to_nat ignore -> length texts1 = 4%nat -> length texts2 = 4%nat ->
  readlines content = ign ++ top :: texts1 ++ rest -> readlines content' = ign ++ top :: texts2 ++ rest ->
  (forall n, attr d kNLHEAD = PInt n -> (Z.of_nat (length ign) + 5 <= n)%Z) ->
  read_file content ignore = Ok (c, d) ->
  exists d', read_file content' ignore = Ok (c, d') /\ same_but_texts d d' /\ texts_of d' texts2.
Proof.
  intros A B ignore ign top t1 t2 rest c d Hl H1 H2 EA EB Hn E.
  pose proof (C153_open A B ignore ign top t1 t2 rest Hl H1 H2 EA EB) as O. unfold read_file in E |- *.
  destruct (openNAFile_r A ignore) as [[c0 h]|] eqn:EO; [|discriminate E]. cbn [bindR fst snd] in E.
  destruct (openNAFile_r B ignore) as [[c0' h']|]; [|contradiction]. destruct O as (<- & Ag & _ & T). cbn [bindR fst snd].
  unfold readData in E |- *. rewrite (at_setup h h' Ag) in E. destruct (setupArrays h' c0) as [s0|]; cbn [bindR] in E |- *; [|discriminate E].
  rewrite <- (at_int h h' Ag kNLHEAD) by (cbn; intuition discriminate). destruct (h_int h kNLHEAD) as [n|] eqn:En; cbn [bindR] in E |- *; [|discriminate E].
  destruct (checkForBlankLines false (slice_from (readlines A) n)) as [ls|] eqn:Ec; cbn [bindR] in E; [|discriminate E].
  destruct (data_loop h c0 (length ls) ls 0 s0) as [s|] eqn:El; cbn [bindR] in E; [|discriminate E]. injection E as <- <-.
  assert (Nn : attr h kNLHEAD = PInt n) by (unfold h_int in En; destruct (attr h kNLHEAD); try discriminate En; now injection En as ->).
  assert (Ns : attr (store h c0 s) kNLHEAD = PInt n) by (rewrite <- Nn; unfold attr; destruct c0; reflexivity). specialize (Hn n Ns).
  assert (Sl : slice_from (readlines B) n = slice_from (readlines A) n).
  { unfold slice_from. destruct (n <? 0)%Z eqn:Eneg; [apply Z.ltb_lt in Eneg; lia|]. rewrite EA, EB.
    replace (Z.to_nat n) with (length ign + S (4 + (Z.to_nat n - length ign - 5)))%nat by lia.
    assert (K : forall (l m : list str) k, skipn (length l + k) (l ++ m) = skipn k m) by (clear; induction l as [|x l IH]; intros m k; [reflexivity|exact (IH m k)]).
    rewrite !K. clear - H1 H2. destruct t1 as [|a1 [|a2 [|a3 [|a4 [|]]]]]; try discriminate H1. destruct t2 as [|b1 [|b2 [|b3 [|b4 [|]]]]]; try discriminate H2.
    reflexivity. }
  rewrite Sl, Ec. cbn [bindR]. rewrite <- (at_loop h h' Ag), El. cbn [bindR]. destruct (at_store h h' Ag c0 s) as (S1 & S2).
  eexists. split; [reflexivity|]. split; [exact S1|]. unfold texts_of in *. clear - T S2.
  assert (K : forall ks ls, (forall k, In k ks -> In k texts) -> Forall2 (fun k l => exists v, readItemFromLine (num:=num) l TStr = Ok v /\ h' k = Some v) ks ls ->
    Forall2 (fun k l => exists v, readItemFromLine (num:=num) l TStr = Ok v /\ store h' c0 s k = Some v) ks ls).
  { intros ks ls Hk F. induction F as [|k l ks ls (v & E1 & E2) F IH]; constructor.
    - exists v. split; [exact E1|]. rewrite (proj2 (S2 k (Hk k (or_introl eq_refl)))). exact E2.
    - apply IH. intros k' Hk'. apply Hk. now right. }
  apply K; [auto|exact T].
Qed.
End C153.
Print Assumptions C153_open.
Print Assumptions C153_read.

(** An empty author, numbers, braces and quotes in the other lines. *)
Definition odd_texts : list str := map (fun l => lit l ++ nl) [""; "1 2 3"; "{braces}"; "'quoted"]%pylit.
Definition odd_1001 : str := concat (firstn 1 (readlines typed_1001) ++ odd_texts ++ skipn 5 (readlines typed_1001)).
Fact odd_text : match readItemFromLine (num:=whole) (nth 0 odd_texts []) TStr with Ok (PStr []) => True | _ => False end.
Proof. vm_compute. exact I. Qed.
Fact odd_lines : exists top texts1 rest,
  readlines typed_1001 = [] ++ top :: texts1 ++ rest /\ readlines odd_1001 = [] ++ top :: odd_texts ++ rest /\ length texts1 = 4%nat.
Proof.
  exists (nth 0 (readlines typed_1001) []), (firstn 4 (skipn 1 (readlines typed_1001))), (skipn 5 (readlines typed_1001)).
  repeat split; vm_compute; reflexivity.
Qed.
Fact typed_reads : match read_file (num:=whole) typed_1001 0 with
  | Ok (c, d) => c = C1001 /\ attr d kNLHEAD = PInt 18 /\ match attr d kONAME with PStr [] => False | _ => True end
  | Err _ => False end.
Proof. vm_compute. repeat split. Qed.
Fact odd_length : length odd_texts = 4%nat.
Proof. reflexivity. Qed.
Example C153_example : exists top texts1 rest d d',
  readlines typed_1001 = [] ++ top :: texts1 ++ rest /\ readlines odd_1001 = [] ++ top :: odd_texts ++ rest /\ length texts1 = 4%nat /\
  read_file (num:=whole) typed_1001 0 = Ok (C1001, d) /\ attr d kNLHEAD = PInt 18 /\
  read_file (num:=whole) odd_1001 0 = Ok (C1001, d') /\ same_but_texts d d' /\ texts_of d' odd_texts /\
  attr d kONAME <> attr d' kONAME.
Proof.
  pose proof odd_text as T0. pose proof odd_lines as EL. pose proof typed_reads as E3. pose proof odd_length as L2. revert T0 EL E3 L2.
  generalize typed_1001, odd_1001, odd_texts. intros A B odd T0 (top & t1 & rest & E1 & E2 & L1) E3 L2.
  destruct (read_file A 0) as [[c d]|] eqn:Er; [|contradiction]. destruct E3 as (-> & Hn & Ho).
  assert (Hd : forall n, attr d kNLHEAD = PInt n -> (Z.of_nat (@length str []) + 5 <= n)%Z)
    by (intros n Q; rewrite Hn in Q; injection Q as <-; discriminate).
  destruct (C153_read A B 0 [] top t1 odd rest C1001 d eq_refl L1 L2 E1 E2 Hd Er) as (d' & Er' & S & T).
  exists top, t1, rest, d, d'. repeat (split; [assumption || reflexivity|]). intros Q. rewrite Q in Ho. clear -Ho T T0.
  inversion T as [|k l ks ls (v & Hv & Hk) _ Q1 Q2]; subst. cbn [nth] in T0. rewrite Hv in T0.
  unfold attr in Ho. rewrite Hk in Ho. destruct v as [| | |[|]|]; contradiction.
Qed.
