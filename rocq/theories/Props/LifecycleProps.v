(** Properties C28, C30, C31: sequences of operations on one file object, failed
    writes, crashes (Model/Lifecycle.v). *)
From Coq Require Import List NArith ZArith Bool Lia.
From Verif Require Import Py.Str Py.Res Py.Num Model.Dict Model.TextParser Model.CommonUtils Model.NAWrite
  Model.Lifecycle Spec.ZNum Spec.Samples Proofs.WriteFrame Proofs.WriteSim Proofs.HeaderLemmas Proofs.LogErase Props.WriteProps.
From Verif Require Model.NAWriteLog.
Import ListNotations.

Section Props.
Context {num : Type} `{NumOps num}.
Implicit Types x y : obj num.

Lemma after_app x l m : after x (l ++ m) = after (after x l) m.
Proof. revert x. induction l as [|p l IH]; intros x; [reflexivity|]. apply IH. Qed.
Lemma events_app x l m : events x (l ++ m) = events x l ++ events (after x l) m.
Proof. revert x. induction l as [|p l IH]; intros x; [reflexivity|]. cbn. now rewrite IH, app_assoc. Qed.

(** * C28 *)
(** An object that can never be written (again). *)
Definition finished x : Prop := ob_mode x = MRead \/ ob_written x = true \/ ob_open x = false.
Lemma finished_check x : finished x -> exists e, write_check x = Err e.
Proof.
  unfold finished, write_check. intros F. destruct (ob_mode x); [eauto|]. destruct (ob_written x); [eauto|].
  destruct (ob_open x); [|eauto]. intuition discriminate.
Qed.
Lemma finished_op x p : finished x -> finished (snd (do_op x p)) /\ ob_file (snd (do_op x p)) = ob_file x.
Proof.
  intros F. destruct p as [o nh| |a d]; cbn [do_op].
  - destruct (finished_check x F) as [e ->]. auto.
  - unfold finished in *. cbn. tauto.
  - unfold finished in *. cbn. tauto.
Qed.
Lemma finished_after x l : finished x -> finished (after x l) /\ ob_file (after x l) = ob_file x.
Proof.
  revert x. induction l as [|p l IH]; intros x F; [auto|]. cbn. destruct (finished_op x p F) as [F' E].
  destruct (IH _ F') as [F2 E2]. split; [exact F2|congruence].
Qed.

(** After a successful write, every further write in any continuation raises
    and leaves the object as it was, and the text of the file never changes. *)
Theorem C28_once x o1 nh1 (rest : list (op num)) o2 nh2 y :
  do_op x (OWrite o1 nh1) = (Ok tt, y) ->
  ob_file (after y rest) = ob_file y
  /\ exists e, do_op (after y rest) (OWrite o2 nh2) = (Err (ENappy e), after y rest).
Proof.
  cbn [do_op]. intros E. assert (W : ob_mode y = MRead \/ ob_written y = true).
  { destruct (write_check x); [|discriminate]. destruct (write_body _ _ _ _) as [r st]. injection E as -> <-. right. reflexivity. }
  assert (F : finished y) by (unfold finished; tauto).
  destruct (finished_after y rest F) as [F' Ef]. split; [exact Ef|].
  unfold finished, write_check in *. destruct (ob_mode (after y rest)); [eauto|].
  destruct (ob_written (after y rest)); [eauto|]. destruct (ob_open (after y rest)); [|eauto]. intuition discriminate.
Qed.

(** Write on an object opened for reading, or after close, raises the error for
    that case; the text of the file never changes. *)
Theorem C28_read_only c a content (rest : list (op num)) o nh :
  let y := after (new_r c a content) rest in
  ob_file y = content /\ do_op y (OWrite o nh) = (Err (ENappy E_ReadOnly), y).
Proof.
  cbv zeta. assert (M : forall l x, ob_mode x = MRead -> ob_mode (after x l) = MRead /\ ob_file (after x l) = ob_file x).
  { induction l as [|p l IH]; intros x Hx; [auto|]. cbn. assert (K : ob_mode (snd (do_op x p)) = MRead /\ ob_file (snd (do_op x p)) = ob_file x).
    { destruct p; cbn [do_op]; auto. unfold write_check. rewrite Hx. auto. }
    destruct K as [K1 K2]. destruct (IH _ K1) as [K3 K4]. split; [exact K3|congruence]. }
  destruct (M rest (new_r c a content) eq_refl) as [M1 M2]. split; [exact M2|]. cbn [do_op]. unfold write_check. now rewrite M1.
Qed.
Theorem C28_after_close x (rest : list (op num)) o nh :
  let y := after x (OClose :: rest) in
  ob_file y = ob_file x /\ exists e, do_op y (OWrite o nh) = (Err (ENappy e), y).
Proof.
  cbv zeta. cbn [after]. set (z := snd (do_op x OClose)).
  assert (F : finished z) by (right; right; reflexivity).
  destruct (finished_after z rest F) as [F' Ef]. split; [exact Ef|]. cbn [do_op].
  unfold finished, write_check in *. destruct (ob_mode (after z rest)); [eauto|].
  destruct (ob_written (after z rest)); [eauto|]. destruct (ob_open (after z rest)); [|eauto]. intuition discriminate.
Qed.
(** Hence in any sequence of operations at most one write succeeds. *)
Fixpoint good_writes x (l : list (op num)) : nat :=
  match l with
  | [] => 0
  | p :: t => (match p with OWrite _ _ => if is_ok (fst (do_op x p)) then 1 else 0 | _ => 0 end
               + good_writes (snd (do_op x p)) t)%nat
  end.
Theorem C28_at_most_one x l : (good_writes x l <= 1)%nat.
Proof.
  assert (Z : forall l x, finished x -> good_writes x l = O).
  { induction l0 as [|p l0 IH]; intros z F; [reflexivity|]. cbn [good_writes].
    rewrite IH by now apply finished_op. destruct p; try reflexivity. cbn [do_op].
    destruct (finished_check z F) as [e ->]. reflexivity. }
  revert x. induction l as [|p l IH]; intros x; [cbn; lia|]. cbn [good_writes].
  destruct p as [o nh| |]; try apply IH. destruct (is_ok (fst (do_op x (OWrite o nh)))) eqn:E; [|apply IH].
  rewrite Z; [lia|]. cbn [do_op] in *. destruct (write_check x); [|discriminate].
  destruct (write_body _ _ _ _) as [r st]. cbn in E |- *. right. left. exact E.
Qed.

(** * C30, what holds *)
(** The text that a single write by a new object with these items produces. *)
Definition single_write (o : opts num) c nh (d : na num) : str := w_file (snd (write_body o c nh (mkW [] [] d))).

(** A write that succeeds appends exactly what a single write would have
    produced to whatever the failed writes before it left in the file. *)
Theorem C30_appends_partial c d (l : list (op num)) o nh y :
  do_op (after (new_w c d) l) (OWrite o nh) = (Ok tt, y) ->
  let x := after (new_w c d) l in
  ob_file y = ob_file x ++ single_write o c nh (parseDictionary (ob_attrs x) (ob_dict x)).
Proof.
  cbv zeta. assert (C : forall l x, ob_cls (after x l) = ob_cls x).
  { induction l0 as [|p l0 IH]; intros z; [reflexivity|]. cbn. rewrite IH. destruct p; cbn [do_op]; auto.
    destruct (write_check z); [|reflexivity]. now destruct (write_body _ _ _ _). }
  specialize (C l (new_w c d)). cbn in C. set (x := after (new_w c d) l) in *. cbn [do_op].
  destruct (write_check x); [|discriminate]. rewrite C. unfold single_write.
  destruct (write_same o c nh (ob_file x) [] [] [] (parseDictionary (ob_attrs x) (ob_dict x)) _ (fun k => eq_refl)) as (_ & t & T1 & T2).
  destruct (write_body o c nh (mkW (ob_file x) [] _)) as [r st]. cbn [snd] in T1. intros E. injection E as _ <-. cbn [ob_file].
  rewrite T1, T2. reflexivity.
Qed.

(** The failed attempts of a history all failed while the header was built. *)
Fixpoint header_failures x (l : list (op num)) : Prop :=
  match l with
  | [] => True
  | p :: t =>
      match p with
      | OWrite o nh => nh = false /\ is_ok (fst (writeHeader o (ob_cls x) (mkW (ob_file x) [] (parseDictionary (ob_attrs x) (ob_dict x))))) = false
      | _ => True
      end /\ header_failures (snd (do_op x p)) t
  end.
(** Then (FFI 2160 aside) the later successful write leaves exactly the file of
    a single write. *)
Theorem C30_retry_partial c d (l : list (op num)) o nh y :
  c <> C2160 -> header_failures (new_w c d) l ->
  do_op (after (new_w c d) l) (OWrite o nh) = (Ok tt, y) ->
  let x := after (new_w c d) l in
  ob_file y = single_write o c nh (parseDictionary (ob_attrs x) (ob_dict x)).
Proof.
  intros Hc Hf E. cbv zeta. rewrite (C30_appends_partial _ _ _ _ _ _ E).
  assert (Z : forall l x, ob_cls x <> C2160 -> header_failures x l -> ob_file (after x l) = ob_file x).
  { clear. induction l as [|p l IH]; intros x Hc Hf; [reflexivity|]. cbn [after]. destruct Hf as [Hp Hf].
    assert (K : ob_cls (snd (do_op x p)) = ob_cls x /\ ob_file (snd (do_op x p)) = ob_file x).
    { destruct p as [o nh| |]; cbn [do_op]; auto. destruct (write_check x); [|auto]. destruct Hp as [-> Hp].
      destruct (write_body o (ob_cls x) false _) as [r st] eqn:Eb. cbn [snd ob_cls ob_file]. split; [reflexivity|].
      destruct (C29_header_atomic_partial o _ _ _ _ _ _ Eb (or_introl Hc)) as [(e & _ & K) | (s1 & data & K & _)]; [exact K|].
      rewrite K in Hp. discriminate. }
    destruct K as [K1 K2]. rewrite IH; [exact K2|now rewrite K1|exact Hf]. }
  now rewrite (Z l (new_w c d) Hc Hf).
Qed.

(** * C31 *)
Definition puts (l : list event) : str := concat (map (fun e => match e with Put s => s | FlushAll => [] end) l).
Lemma puts_app l m : puts (l ++ m) = puts l ++ puts m.
Proof. unfold puts. now rewrite map_app, concat_app. Qed.
Lemma puts_calls l : puts (map Put l) = concat l.
Proof. unfold puts. rewrite map_map, map_id. reflexivity. Qed.
Lemma reach_total s1 s2 : io_reach s1 s2 ->
  io_disk s2 ++ io_buf s2 ++ puts (io_todo s2) = io_disk s1 ++ io_buf s1 ++ puts (io_todo s1).
Proof.
  induction 1 as [s|s1 s2 s3 _ IH Hs]; [reflexivity|]. rewrite <- IH. destruct Hs; cbn [io_disk io_buf io_todo].
  - unfold puts. cbn. rewrite !app_assoc. reflexivity.
  - unfold puts. cbn. now rewrite !app_assoc.
  - now rewrite !app_assoc.
Qed.
Lemma op_text x p : ob_file (snd (do_op x p)) = ob_file x ++ puts (op_events x p).
Proof.
  destruct p as [o nh| |]; cbn [do_op op_events]; try now rewrite app_nil_r.
  destruct (write_check x); [|cbn; now rewrite app_nil_r].
  pose proof (log_erase o (ob_cls x) nh (ob_file x) [] (parseDictionary (ob_attrs x) (ob_dict x))) as K. cbv zeta in K.
  destruct (write_body o _ nh _) as [r st]. destruct (NAWriteLog.write_body o _ nh _) as [r' st']. cbn [fst snd] in K.
  destruct K as (-> & K & _). cbn [snd ob_file]. rewrite K, puts_app, puts_calls. destruct (is_ok r'); cbn; now rewrite app_nil_r.
Qed.
Lemma ops_text l : forall x, ob_file (after x l) = ob_file x ++ puts (events x l).
Proof.
  induction l as [|p l IH]; intros x; [cbn; now rewrite app_nil_r|]. cbn [after events]. rewrite IH, op_text, puts_app. now rewrite app_assoc.
Qed.

(** In every execution of every sequence of operations on a new object, at every
    point and however the buffer is emptied, the file on disk is a prefix of the
    text written. *)
Theorem C31_disk_is_prefix c d (l : list (op num)) (s : io) :
  let x := new_w c d in
  io_reach (mkIo (events x l) [] []) s ->
  exists rest, ob_file (after x l) = io_disk s ++ rest.
Proof.
  cbv zeta. intros R. apply reach_total in R. cbn [io_disk io_buf io_todo app] in R.
  rewrite ops_text. cbn [new_w ob_file app]. rewrite <- R. eauto.
Qed.
Lemma flushed s1 s2 : io_reach s1 s2 -> forall t, io_todo s1 = t ++ [FlushAll] -> io_todo s2 = [] -> io_buf s2 = [].
Proof.
  intros R t Ht.
  assert (K : (exists u, io_todo s2 = u ++ [FlushAll]) \/ (io_todo s2 = [] /\ io_buf s2 = [])).
  { induction R as [s|s1 s2 s3 _ IH Hs]; [eauto|]. specialize (IH Ht). destruct Hs; cbn [io_todo io_buf] in *.
    - destruct IH as [[[|e u] E] | [E _]]; try discriminate. injection E as _ ->. eauto.
    - destruct IH as [[[|e u] E] | [E _]]; try discriminate; injection E as E; [right|]; eauto.
    - destruct IH as [IH | [-> E]]; [eauto|]. right. apply app_eq_nil in E as [_ ->]. auto. }
  intros E. destruct K as [[u K] | [_ K]]; [|exact K]. rewrite E in K. destruct u; discriminate.
Qed.
(** When a successful write, or close, has returned, all of the text is on disk. *)
Theorem C31_complete_on_return c d (l : list (op num)) p (s : io) :
  let x := new_w c d in
  match p with
  | OWrite _ _ => fst (do_op (after x l) p) = Ok tt
  | OClose => True
  | OEdit _ _ => False
  end ->
  io_reach (mkIo (events x (l ++ [p])) [] []) s -> io_todo s = [] ->
  io_disk s = ob_file (after x (l ++ [p])).
Proof.
  cbv zeta. intros Hp R Et.
  assert (Ee : exists t, events (new_w c d) (l ++ [p]) = t ++ [FlushAll]).
  { rewrite events_app. cbn [events]. rewrite app_nil_r. destruct p as [o nh| |]; [|exists (events (new_w c d) l); reflexivity|destruct Hp].
    set (x := after (new_w c d) l) in *. cbn [do_op op_events] in *. destruct (write_check x); [|discriminate].
    pose proof (log_erase o (ob_cls x) nh (ob_file x) [] (parseDictionary (ob_attrs x) (ob_dict x))) as K. cbv zeta in K.
    destruct (write_body o _ nh _) as [r st]. destruct (NAWriteLog.write_body o _ nh _) as [r' st']. cbn [fst snd] in K, Hp.
    destruct K as (<- & _). subst r. cbn [is_ok]. rewrite app_assoc. eauto. }
  destruct Ee as [t Ee]. pose proof (flushed _ _ R t Ee Et) as Eb.
  apply reach_total in R. cbn [io_disk io_buf io_todo app] in R. rewrite Et, Eb in R. cbn in R. rewrite app_nil_r in R.
  rewrite ops_text. exact R.
Qed.
End Props.

(** * C30 is false in general *)
(** A dictionary with a value missing at the third mark. *)
Definition d1001_short : na Z := upd d1001 kV (ls [nms [10; 20; 30]%Z; nms [-1; -2]%Z]).
Theorem C30_refuted : exists (c : cls) (d d' : na Z) (o : opts Z) y,
  is_ok (fst (do_op (new_w c d) (OWrite o false))) = false
  /\ do_op (after (new_w c d) [OWrite o false; OEdit (fun _ => None) d']) (OWrite o false) = (Ok tt, y)
  /\ ob_file y <> single_write o c false d'.
Proof.
  exists C1001, d1001_short, d1001, opts0. eexists. split; [|split].
  - vm_compute. reflexivity.
  - apply run_pair. vm_compute. reflexivity.
  - vm_compute. discriminate.
Qed.

(** * Concrete cases *)
Definition d1001_no_name : na Z := upd d1001 kXNAME PNone.
Example lifecycle_example :
  let x := new_w C1001 d1001 in
  good_writes x [OWrite opts0 false; OWrite opts0 true; OClose; OWrite opts0 false] = 1%nat
  /\ good_writes (new_w C1001 d1001_no_name) [OWrite opts0 false; OEdit (fun _ => None) d1001; OWrite opts0 false] = 1%nat
  /\ ob_file (after (new_w C1001 d1001_no_name) [OWrite opts0 false; OEdit (fun _ => None) d1001; OWrite opts0 false])
     = single_write opts0 C1001 false d1001
  /\ length (events x [OWrite opts0 false; OClose]) = 6%nat.
Proof. vm_compute. repeat split; reflexivity. Qed.
Example C30_premises : header_failures (new_w C1001 d1001_no_name) [OWrite opts0 false; OEdit (fun _ => None) d1001].
Proof. vm_compute. auto. Qed.
(** An execution in which the header is on disk before the data is written. *)
Example C31_execution : exists s : io,
  io_reach (mkIo (events (new_w C1001 d1001) [OWrite opts0 false]) [] []) s
  /\ length (io_todo s) = 4%nat /\ io_disk s <> [] /\ io_buf s <> [].
Proof.
  destruct (events (new_w C1001 d1001) [OWrite opts0 false]) as [|[h|] l] eqn:E; [vm_compute in E; discriminate| |vm_compute in E; discriminate].
  exists (mkIo l (skipn 4 h) (firstn 4 h)). vm_compute in E. injection E as <- <-. split.
  - eapply IoNext; [eapply IoNext; [apply IoHere|apply IoPut]|].
    match goal with |- io_step (mkIo ?t (?b ++ ?h) ?d) (mkIo ?t ?b2 ?d2) =>
      let b1 := eval vm_compute in (firstn 4 h) in let b2' := eval vm_compute in (skipn 4 h) in
      change (io_step (mkIo t (b1 ++ b2') d) (mkIo t b2' (d ++ b1))) end. apply IoSpill.
  - vm_compute. repeat split; discriminate.
Qed.

Print Assumptions C28_once.
Print Assumptions C28_read_only.
Print Assumptions C28_after_close.
Print Assumptions C28_at_most_one.
Print Assumptions C30_refuted.
Print Assumptions C30_appends_partial.
Print Assumptions C30_retry_partial.
Print Assumptions C31_disk_is_prefix.
Print Assumptions C31_complete_on_return.
