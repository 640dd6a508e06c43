(** Property C148: questions put to a file object. *)
From Coq Require Import List NArith ZArith Bool Lia.
From Verif Require Import Py.Str Py.Res Py.Num Model.Dict Model.CommonUtils Model.NAWrite Model.NACore Model.NAObject Model.Lifecycle Model.Inspect
  Spec.ZNum Spec.Samples Spec.InspectSpec Proofs.WriteSim Props.WriteProps Props.LifecycleProps.
Import ListNotations.

Section Inspect.
Context {num : Type} `{NumOps num}.
Variable callback : option (str -> str * option str).
Variable other : str -> bool.
Local Notation ask := (ask callback other).
Local Notation run := (run callback other).
Local Notation says := (says callback other).

Lemma mapR_same {A B} (f g : A -> Res B) l : (forall a, f a = g a) -> mapR f l = mapR g l.
Proof. intros E. induction l as [| a l IH]; [reflexivity |]. cbn. rewrite E, IH. reflexivity. Qed.
Lemma attr_same (h h' : na num) : (forall k, h k = h' k) -> forall k, attr h k = attr h' k.
Proof. intros E k. unfold attr. rewrite E. reflexivity. Qed.
(** Answers depend on the attributes only. *)
Lemma says_same (h h' : na num) q : (forall k, h k = h' k) -> same_answer (says h q) (says h' q).
Proof.
  intros E. assert (A := attr_same _ _ E).
  assert (N : forall k i, name_of callback h k i = name_of callback h' k i) by (intros; unfold name_of; rewrite A; reflexivity).
  assert (V : forall i, getVariable callback h i = getVariable callback h' i) by (intros; unfold getVariable, getMissingValue, getScaleFactor; rewrite N, !A; reflexivity).
  assert (X : forall i, getAuxVariable callback h i = getAuxVariable callback h' i) by (intros; unfold getAuxVariable, getAuxMissingValue, getAuxScaleFactor; rewrite N, !A; reflexivity).
  destruct q; cbn [Inspect.says same_answer].
  - intros k. cbn. rewrite E. reflexivity.
  - f_equal. unfold getitem. destruct (find _ all_keys); [rewrite A |]; reflexivity.
  - rewrite V. reflexivity.
  - unfold getIndependentVariable. rewrite N. reflexivity.
  - rewrite X. reflexivity.
  - unfold getVariables. rewrite A. f_equal. destruct (as_int _); [cbn; apply mapR_same, V | reflexivity].
  - unfold getIndependentVariables. rewrite A. f_equal. destruct (as_int _); [cbn; apply mapR_same; intros; apply N | reflexivity].
  - unfold getAuxVariables. rewrite A. f_equal. destruct (attr h' kNAUXV); try reflexivity; (destruct (as_int _); [cbn; apply mapR_same, X | reflexivity]).
  - unfold getMissingValue. rewrite A. reflexivity.
  - unfold getScaleFactor. rewrite A. reflexivity.
  - unfold getAuxMissingValue. rewrite A. reflexivity.
  - unfold getAuxScaleFactor. rewrite A. reflexivity.
  - unfold getNumHeaderLines. rewrite A. reflexivity.
  - unfold getFFI. rewrite A. reflexivity.
  - unfold getOriginator. rewrite A. reflexivity.
  - unfold getOrganisation. rewrite A. reflexivity.
  - unfold getOrg, getOrganisation. rewrite A. reflexivity.
  - unfold getSource. rewrite A. reflexivity.
  - unfold getMission. rewrite A. reflexivity.
  - unfold getVolumes. rewrite !A. reflexivity.
  - unfold getFileDates. rewrite !A. reflexivity.
  - unfold getNormalComments. rewrite A. reflexivity.
  - unfold getSpecialComments. rewrite A. reflexivity.
Qed.

(** A question changes at most [na_dict]. *)
Lemma ask_alike (x : obj num) q : alike (snd (ask x q)) x.
Proof. destruct q; repeat split. Qed.

(** ** Operations on objects that are alike *)
Definition parsed (x : obj num) : na num := parseDictionary (ob_attrs x) (ob_dict x).
Definition twins (x y : obj num) : Prop := alike x y /\ (ob_mode x = MWrite -> forall k, parsed x k = parsed y k).
Lemma settled_parsed (x : obj num) k : settled x -> parsed x k = ob_attrs x k.
Proof. intros S. unfold parsed, parseDictionary. destruct (ob_dict x k) eqn:E; [symmetry; exact (S _ _ E) | reflexivity]. Qed.
Lemma body_same o c nh f (d1 d2 : na num) : (forall k, d1 k = d2 k) ->
  fst (write_body o c nh (mkW f [] d1)) = fst (write_body o c nh (mkW f [] d2)) /\
  (forall k, w_na (snd (write_body o c nh (mkW f [] d1))) k = w_na (snd (write_body o c nh (mkW f [] d2))) k) /\
  w_file (snd (write_body o c nh (mkW f [] d1))) = w_file (snd (write_body o c nh (mkW f [] d2))).
Proof.
  intros E. destruct (resp_body o c nh (mkW f [] d1) (mkW f [] d2)) as (R1 & (R2 & _) & t & T1 & T2); [split; [intros k _; apply E | reflexivity] |].
  split; [exact R1 |]. split; [intros k; apply R2; reflexivity |]. rewrite T1, T2. reflexivity.
Qed.
Lemma settled_write (x : obj num) o nh : write_check x = Ok tt -> settled (snd (do_op x (OWrite o nh))).
Proof.
  intros C k v. cbn [do_op]. rewrite C. destruct (write_body _ _ _ _) as [r st]. cbn. unfold shared. destruct (ob_dict x k); [auto | discriminate].
Qed.
Lemma op_twins (x y : obj num) p : twins x y -> fst (do_op x p) = fst (do_op y p) /\ twins (snd (do_op x p)) (snd (do_op y p)).
Proof.
  intros ((A1 & A2 & A3 & A4 & A5 & A6) & T). destruct p as [o nh | | a d].
  - assert (W : write_check x = write_check y) by (unfold write_check; rewrite A1, A3, A4; reflexivity).
    destruct (write_check y) as [[] | e] eqn:C.
    + assert (M : ob_mode x = MWrite) by (unfold write_check in W; destruct (ob_mode x); [discriminate W | reflexivity]).
      assert (S1 := settled_write x o nh W). assert (S2 := settled_write y o nh C). revert S1 S2. cbn [do_op]. rewrite W, C, <- A2, <- A6.
      destruct (body_same o (ob_cls x) nh (ob_file x) _ _ (T M)) as (B1 & B2 & B3). unfold parsed in *.
      destruct (write_body _ _ _ (mkW _ _ (parseDictionary (ob_attrs x) _))) as [r1 s1], (write_body _ _ _ (mkW _ _ (parseDictionary (ob_attrs y) _))) as [r2 s2]. cbn in *. subst r2. intros S1 S2.
      split; [reflexivity |]. split; [repeat split; assumption |]. intros _ k. rewrite !settled_parsed by assumption. exact (B2 k).
    + cbn [do_op]. rewrite W, C. split; [reflexivity |]. split; [repeat split; assumption | exact T].
  - cbn. split; [reflexivity |]. split; [repeat split; assumption | exact T].
  - cbn. split; [reflexivity |]. split; [repeat split; cbn; assumption |]. intros _ k. reflexivity.
Qed.
Lemma ask_twins (x y : obj num) q : twins x y -> q <> QDict \/ ob_mode x = MRead \/ settled x -> twins (snd (ask x q)) y.
Proof.
  intros ((A1 & A2 & A3 & A4 & A5 & A6) & T) C. destruct q; try (split; [repeat split; assumption | exact T]).
  split; [repeat split; assumption |]. cbn. intros M k. destruct C as [C | [C | C]]; [congruence | congruence |].
  rewrite <- (T M), (settled_parsed x k C). unfold parsed, parseDictionary. cbn. destruct (ob_attrs x k) as [[] |]; reflexivity.
Qed.
Lemma settled_ask (x : obj num) q : settled x -> settled (snd (ask x q)).
Proof.
  intros S. destruct q; try exact S. intros k v. cbn. destruct (ob_attrs x k) as [[] |]; intros Q; first [discriminate Q | exact Q].
Qed.
Lemma settled_op (x : obj num) p : settled x -> ~ (exists a d, p = OEdit a d) -> settled (snd (do_op x p)).
Proof.
  intros S N. destruct p as [o nh | | a d]; [| exact S | destruct N; eauto]. destruct (write_check x) as [[] |] eqn:C; [apply settled_write, C |]. cbn [do_op]. rewrite C. exact S.
Qed.
Lemma mode_op (x : obj num) p : ob_mode (snd (do_op x p)) = ob_mode x.
Proof. destruct p; cbn [do_op]; try reflexivity. destruct (write_check x); [| reflexivity]. destruct (write_body _ _ _ _). reflexivity. Qed.
Lemma mode_ask (x : obj num) q : ob_mode (snd (ask x q)) = ob_mode x.
Proof. destruct q; reflexivity. Qed.

Lemma run_twins l : forall (x y : obj num), twins x y -> ~ In (CAsk QDict) l \/ ob_mode x = MRead \/ (settled x /\ ~ edits l) ->
  results (fst (run x l)) = results (fst (run y (operations l))) /\ twins (snd (run x l)) (snd (run y (operations l))).
Proof.
  induction l as [| c l IH]; intros x y T C; [split; [reflexivity | exact T] |]. destruct c as [q | p]; cbn [operations filter Inspect.run do_call].
  - destruct (ask x q) as [a x'] eqn:E. assert (Ex : x' = snd (ask x q)) by (rewrite E; reflexivity).
    destruct (IH x' y) as (R1 & R2).
    + rewrite Ex. apply ask_twins; [exact T |]. destruct C as [C | [C | (C & _)]]; [left; intros ->; apply C; left; reflexivity | auto | auto].
    + rewrite Ex, mode_ask. destruct C as [C | [C | (C & N)]]; [left; intros I; apply C; right; exact I | auto |].
      right. right. split; [apply settled_ask, C |]. intros (a' & d & I). apply N. exists a', d. right. exact I.
    + fold (operations l). destruct (run x' l) as [rs z]. cbn in *. split; [exact R1 | exact R2].
  - fold (operations l). destruct (op_twins x y p T) as (P1 & P2). destruct (do_op x p) as [r x'] eqn:Ex, (do_op y p) as [r' y'] eqn:Ey. cbn in P1, P2. subst r'.
    destruct (IH x' y' P2) as (R1 & R2).
    + replace x' with (snd (do_op x p)) by (rewrite Ex; reflexivity). rewrite mode_op. destruct C as [C | [C | (C & N)]]; [left; intros I; apply C; right; exact I | auto |].
      right. right. split; [apply settled_op; [exact C |]; intros (a & d & ->); apply N; exists a, d; left; reflexivity |]. intros (a' & d & I). apply N. exists a', d. right. exact I.
    + destruct (run x' l) as [rs z], (run y' (operations l)) as [rs' z']. cbn in *. split; [rewrite R1; reflexivity | exact R2].
Qed.

(** Questions other than getNADict change nothing, whatever is done to the object;
    getNADict changes nothing on objects opened for reading, and on others once
    their dictionary has been used by a write: the operations have the same results,
    the file the same text, and every later question the same answer as without
    the questions. *)
Theorem C148_unchanged_partial : forall (x : obj num) l,
  ~ In (CAsk QDict) l \/ ob_mode x = MRead \/ (settled x /\ ~ edits l) ->
  results (fst (run x l)) = results (fst (run x (operations l))) /\ alike (snd (run x l)) (snd (run x (operations l))) /\
  forall q, same_answer (fst (ask (snd (run x l)) q)) (fst (ask (snd (run x (operations l))) q)).
Proof.
  intros x l C. destruct (run_twins l x x) as (R & (A & _)); [split; [repeat split | reflexivity] | exact C |].
  split; [exact R |]. split; [exact A |]. intros q. apply says_same. apply A.
Qed.
(** Every write that is not refused, successful or not, uses the dictionary. *)
Theorem C148_settled : forall (x : obj num) o nh, ob_mode x = MWrite -> ob_open x = true -> ob_written x = false -> settled (snd (do_op x (OWrite o nh))).
Proof. intros x o nh M O W. apply settled_write. unfold write_check. rewrite M, W, O. reflexivity. Qed.

(** So getNADict can be asked at any time after the first write. *)
Theorem C148_written_partial : forall c (d : na num) o nh l, ~ edits l ->
  let x := snd (do_op (opened c d) (OWrite o nh)) in
  results (fst (run x l)) = results (fst (run x (operations l))) /\ alike (snd (run x l)) (snd (run x (operations l))).
Proof.
  intros c d o nh l N x. destruct (C148_unchanged_partial x l) as (A & B & _); [| split; assumption].
  right. right. split; [apply C148_settled; reflexivity | exact N].
Qed.
End Inspect.

(** getNADict before the first write makes the object forget its dictionary: the
    same write, which succeeds without the question, raises, and the file is empty. *)
Theorem C148_refuted : exists (c : cls) (d : na Z) (o : opts Z) e y z,
  do_op (opened c d) (OWrite o false) = (Ok tt, y) /\ ob_file y <> [] /\
  run None (fun _ => false) (opened c d) [CAsk QDict; CDo (OWrite o false)] = ([Said (ADict (fst (getNADict (mkCore (ob_attrs (opened c d)) d)))); Did (Err e)], z) /\ ob_file z = [].
Proof.
  exists C1001, d1001, opts0. do 3 eexists. split; [apply run_pair; vm_compute; reflexivity |]. split; [vm_compute; discriminate |]. split; [| ].
  - cbn. reflexivity.
  - reflexivity.
Qed.
Print Assumptions C148_unchanged_partial.
Print Assumptions C148_settled.
Print Assumptions C148_written_partial.
Print Assumptions C148_refuted.

(** ** Examples *)
Definition talk : list (call Z) := [CAsk QDict; CDo (OWrite opts0 true); CAsk QVariables; CAsk QFFI; CAsk (QItem (lit "NV")); CAsk QDict; CDo OClose].
(** After a write that failed in the data section, and after one that succeeded. *)
Example C148_example : ~ edits talk /\
  (let x := snd (do_op (opened C1001 d1001_short) (OWrite opts0 false)) in
   ob_written x = false /\ ob_file x <> [] /\ results (fst (run None (fun _ => false) x talk)) = [Err EIndexError; Ok tt]) /\
  (let x := snd (do_op (opened C1001 d1001) (OWrite opts0 false)) in
   ob_written x = true /\ results (fst (run None (fun _ => false) x talk)) = [Err (ENappy E_AlreadyWritten); Ok tt] /\
   match fst (run None (fun _ => false) x talk) with
   | [Said (ADict d); _; Said (AInfos (Ok l)); Said (AValue f); Said (AItem v); Said (ADict e); _] =>
       length l = 2%nat /\ f = Ok (PInt 1001) /\ v = Value (PInt 2) /\ d kNV = Some (PInt 2) /\ e kNV = Some (PInt 2) /\ d kNAUXV = None
   | _ => False end).
Proof.
  split; [intros (a & d & I); cbn in I; repeat destruct I as [I | I]; try discriminate I; exact I |].
  vm_compute. repeat split; discriminate.
Qed.
(** The first premise of [C148_unchanged_partial] with an edit of the object. *)
Example C148_premises : ~ In (CAsk QDict) [CAsk QFFI; CDo (OEdit (fun _ => None) d1001); CAsk QMission; CDo (OWrite opts0 false)] /\
  results (fst (run None (fun _ => false) (opened C1001 na_empty) [CAsk QFFI; CDo (OEdit (fun _ => None) d1001); CAsk QMission; CDo (OWrite opts0 false)])) = [Ok tt; Ok tt].
Proof. split; [intros I; cbn in I; repeat destruct I as [I | I]; try discriminate I; exact I | vm_compute; reflexivity]. Qed.
