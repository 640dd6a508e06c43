(** C129: file objects in with statements (Model/WithBlock.v). *)
From Coq Require Import List NArith ZArith Bool Lia.
From Verif Require Import Py.Str Py.Res Py.Num Model.Dict Model.TextParser Model.CommonUtils Model.NAWrite Model.Lifecycle Model.WithBlock
  Spec.ZNum Spec.Samples Props.WriteProps Props.LifecycleProps.
Import ListNotations.

Section C129.
Context {num : Type} `{NumOps num}.
Implicit Types x : obj num.

(** The block is a sequence of operations. *)
Lemma block_ops : forall l x, exists ops, snd (run_block x l) = after x ops /\ block_events x l = events x ops.
Proof.
  induction l as [| [p caught | e] t IH]; intros x; cbn [run_block block_events].
  - exists []. auto.
  - destruct (do_op x p) as [[u | e] x'] eqn:E.
    + destruct (IH x') as (ops & A & B). exists (p :: ops). cbn [after events]. rewrite E. cbn [snd]. rewrite B. auto.
    + destruct caught.
      * destruct (IH x') as (ops & A & B). exists (p :: ops). cbn [after events]. rewrite E. cbn [snd]. rewrite B. auto.
      * exists [p]. cbn [after events]. rewrite E. cbn [snd]. rewrite app_nil_r. auto.
  - exists []. auto.
Qed.
Lemma with_ops : forall l x, exists ops,
  snd (with_block x l) = after x (ops ++ [OClose]) /\ with_events x l = events x (ops ++ [OClose]).
Proof.
  intros l x. destruct (block_ops l x) as (ops & A & B). exists ops. unfold with_block, with_events, enter.
  rewrite B, events_app, after_app, <- A. destruct (run_block x l) as [r x']. cbn [snd]. split; [reflexivity |].
  cbn [events]. rewrite app_nil_r. reflexivity.
Qed.

(** However the block ends, the object is closed afterwards, an exception of the
    block goes on, and no later operation changes the file or writes to it. *)
Theorem C129_closed : forall x (l : list (stmt num)) rest o nh,
  let y := snd (with_block x l) in
  fst (with_block x l) = fst (run_block x l) /\ ob_open y = false /\
  ob_file (after y rest) = ob_file y /\ ob_file y = ob_file (snd (run_block x l)) /\
  exists e, do_op (after y rest) (OWrite o nh) = (Err (ENappy e), after y rest).
Proof.
  intros x l rest o nh. cbv zeta. unfold with_block, enter. destruct (run_block x l) as [r z]. unfold exit_block. cbn [do_op fst snd].
  destruct (C28_after_close z rest o nh) as (A & e & B). cbn [after do_op snd] in A, B.
  split; [reflexivity |]. split; [reflexivity |]. split; [exact A |]. split; [reflexivity |]. exists e. exact B.
Qed.
(** On a new object, the disk then has all text that the block has written. *)
Theorem C129_disk : forall c d (l : list (stmt num)) (s : io),
  io_reach (mkIo (with_events (new_w c d) l) [] []) s -> io_todo s = [] ->
  io_disk s = ob_file (snd (run_block (new_w c d) l)).
Proof.
  intros c d l s R T. destruct (with_ops l (new_w c d)) as (ops & A & B). rewrite B in R.
  rewrite (C31_complete_on_return c d ops OClose s I R T), <- A.
  unfold with_block, enter. destruct (run_block (new_w c d) l) as [r z]. reflexivity.
Qed.
(** A block that writes successfully leaves exactly the file of that write on the
    disk, whatever it does or raises afterwards. *)
Theorem C129_written : forall c d o nh caught (l : list (stmt num)) (s : io),
  fst (do_op (new_w c d) (OWrite o nh)) = Ok tt ->
  io_reach (mkIo (with_events (new_w c d) (SDo (OWrite o nh) caught :: l)) [] []) s -> io_todo s = [] ->
  io_disk s = single_write o c nh d.
Proof.
  intros c d o nh caught l s W R T. rewrite (C129_disk c d _ s R T). cbn [run_block].
  destruct (do_op (new_w c d) (OWrite o nh)) as [r y] eqn:E. cbn [fst] in W. subst r.
  destruct (block_ops l y) as (ops & A & _). rewrite A. destruct (C28_once _ _ _ ops o nh _ E) as [F _]. rewrite F.
  rewrite (C30_appends_partial c d [] o nh y E). cbn [after new_w ob_file ob_attrs ob_dict app]. unfold single_write, parseDictionary.
  assert (K : forall k, match d k with Some v => Some v | None => None end = d k) by (intros k; destruct (d k); reflexivity).
  destruct (WriteSim.write_same o c nh [] [] [] [] _ d K) as (_ & t & T1 & T2). rewrite T1, T2. reflexivity.
Qed.
End C129.
Print Assumptions C129_closed.
Print Assumptions C129_disk.
Print Assumptions C129_written.

(** A block that writes, writes again and raises; one whose write fails. *)
Example C129_example :
  let x := new_w C1001 d1001 in
  let b := [SDo (OWrite opts0 false) false; SDo (OWrite opts0 false) true; SRaise EValueError; SDo (OEdit (fun _ => None) (fun _ => None)) false] in
  fst (with_block x b) = Err EValueError /\ ob_open (snd (with_block x b)) = false /\
  ob_file (snd (with_block x b)) = single_write opts0 C1001 false d1001 /\ ob_file (snd (with_block x b)) <> [] /\
  is_ok (fst (with_block (new_w C1001 d1001_short) [SDo (OWrite opts0 false) false])) = false /\
  ob_open (snd (with_block (new_w C1001 d1001_short) [SDo (OWrite opts0 false) false])) = false.
Proof. vm_compute. repeat split; try reflexivity. discriminate. Qed.
