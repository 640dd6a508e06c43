(** C18, C19: writing a dictionary more than once. *)
From Coq Require Import List NArith ZArith Bool Lia.
From Verif Require Import Py.Str Py.Res Py.Num Model.Dict Model.TextParser Model.CommonUtils Model.NAWrite Model.NARead
  Spec.ZNum Spec.Samples Spec.WriteSpec Proofs.WriteFrame Proofs.WriteSim Props.WriteProps.
Import ListNotations.

(** Two successful writes leave the dictionary as it was, ... *)
Theorem C18_two_writes : forall num (Num : NumOps num) (o : opts num) c nh f1 f2 h1 h2 d st1 st2,
  write_body o c nh (mkW f1 h1 d) = (Ok tt, st1) -> write_body o c nh (mkW f2 h2 (w_na st1)) = (Ok tt, st2) ->
  forall k, w_na st2 k = d k.
Proof.
  intros num Num o c nh f1 f2 h1 h2 d st1 st2 E1 E2 k.
  destruct (C18_dict_unchanged_partial o c nh f1 h1 d _ st1 E1) as (_ & _ & R1). destruct (R1 eq_refl) as (A1 & B1).
  destruct (C18_dict_unchanged_partial o c nh f2 h2 _ _ st2 E2) as (_ & _ & R2). destruct (R2 eq_refl) as (A2 & B2).
  destruct (in_dec key_eq_dec k (left_reversed c nh)) as [I | N]; [| rewrite B2, B1 by exact N; reflexivity].
  destruct (A1 k I) as (l & P & Q). destruct (A2 k I) as (l' & P' & Q'). rewrite Q in P'. injection P' as <-. rewrite Q', P, rev_involutive. reflexivity.
Qed.
Print Assumptions C18_two_writes.
(** ... so that the third file is the first one again. *)
Theorem C19_third_write : forall num (Num : NumOps num) (o : opts num) c nh h1 h2 h3 d st1 st2 r3 st3,
  write_body o c nh (mkW [] h1 d) = (Ok tt, st1) -> write_body o c nh (mkW [] h2 (w_na st1)) = (Ok tt, st2) ->
  write_body o c nh (mkW [] h3 (w_na st2)) = (r3, st3) ->
  r3 = Ok tt /\ w_file st3 = w_file st1.
Proof.
  intros num Num o c nh h1 h2 h3 d st1 st2 r3 st3 E1 E2 E3.
  assert (Hd := C18_two_writes _ _ _ _ _ _ _ _ _ _ _ _ E1 E2).
  destruct (write_same o c nh [] [] h1 h3 d (w_na st2)) as (K1 & t & T1 & T2).
  { intros k. symmetry. apply Hd. }
  rewrite E1, E3 in *. cbn in *. split; congruence.
Qed.
Print Assumptions C19_third_write.

(** A dictionary of format 2010: the second file is another one, the third is the
    first again.  One of format 1001 is the same in all files. *)
Definition three (c : cls) (d : na Z) : list (bool * str) :=
  let w d := write_body opts0 c false (mkW [] [] d) in let a := w d in let b := w (w_na (snd a)) in let e := w (w_na (snd b)) in
  map (fun p => (is_ok (fst p), w_file (snd p))) [a; b; e].
Example C19_example :
  match three C2010 d2010 with [(true, a); (true, b); (true, e)] => a <> b /\ a = e | _ => False end /\
  match three C1001 d1001 with [(true, a); (true, b); (true, e)] => a = b /\ a = e | _ => False end.
Proof. vm_compute. repeat split; discriminate. Qed.
(** DX with one item twice is not changed. *)
Example C18_example : palindromic (attr (upd d2010 kDX (PList [PNum 2%Z; PNum 2%Z])) kDX) /\
  let w := write_body opts0 C2010 false (mkW [] [] (upd d2010 kDX (PList [PNum 2%Z; PNum 2%Z]))) in
  fst w = Ok tt /\ w_na (snd w) kDX = Some (PList [PNum 2%Z; PNum 2%Z]).
Proof. split; [intros l E; injection E as <-; reflexivity |]. vm_compute. split; reflexivity. Qed.
