(** Further marks only add lines at the end of the file. *)
From Coq Require Import List NArith ZArith Bool Lia.
From Verif Require Import Py.Str Py.Res Py.Num Model.Dict Model.TextParser Model.CommonUtils
  Model.NARead Model.NAWrite Spec.TextSpec Spec.ReadSpec Spec.CutSpec Spec.WholeNum Proofs.LongerFile Props.RewriteProps Props.CutProps.
Import ListNotations.

(** Whatever the options, the class and the dictionaries: when [d] has the first
    marks of [d'] and [d] can be written, the text written for [d'] starts with
    the text written for [d], even when writing [d'] raises at a later mark. *)
Theorem C150 : forall {num : Type} `{NumOps num} (o : opts num) c no_header (d d' : na num) file h h' st r st',
  first_marks c d d' ->
  write_body o c no_header (mkW file h d) = (Ok tt, st) ->
  write_body o c no_header (mkW file h' d') = (r, st') ->
  exists more, w_file st' = w_file st ++ more.
Proof.
  intros num ? o c nh d d' file h h' st r st' Hf E E'. exact (further_body o c nh file h h' d d' st r st' Hf E E').
Qed.
Print Assumptions C150.

(** The dictionaries read from a file and from the file without its last mark:
    both are written, and the longer text is the shorter one and the lines of
    the last mark. *)
Definition text_of (c : cls) (d : na whole) : str := w_file (snd (write_body opts_whole c false (mkW [] [] d))).
Definition part (n : nat) (content : str) : na whole := dict_or (read_file (cut_at n content) 0).
Definition entire (content : str) : na whole := dict_or (read_file content 0).
Definition written_longer (c : cls) (n : nat) (content : str) : Prop :=
  first_marks c (part n content) (entire content) /\
  fst (write_body opts_whole c false (mkW [] [] (part n content))) = Ok tt /\
  fst (write_body opts_whole c false (mkW [] [] (entire content))) = Ok tt /\
  exists more, more <> [] /\ text_of c (entire content) = text_of c (part n content) ++ more.
Example C150_example : written_longer C1001 19 typed_1001 /\ written_longer C2010 22 typed_2010 /\ written_longer C2160 31 typed_2160.
Proof.
  assert (K : forall c n content, whole_lines (cut_at n content) -> read_file (cut_at n content) 0 = Ok (c, part n content) ->
    read_file (cut_at n content ++ cut_off n content) 0 = Ok (c, entire content) ->
    openNAFile_r (num:=whole) (cut_at n content) 0 = openNAFile_r (cut_at n content ++ cut_off n content) 0 ->
    (forall n, attr (entire content) kNLHEAD = PInt n -> (0 <= n)%Z) ->
    fst (write_body opts_whole c false (mkW [] [] (part n content))) = Ok tt ->
    fst (write_body opts_whole c false (mkW [] [] (entire content))) = Ok tt ->
    length (text_of c (entire content)) <> length (text_of c (part n content)) -> written_longer c n content).
  { intros c n content Hw E1 E2 E3 Hn W1 W2 Hl. pose proof (proj2 (C149_file_partial _ _ _ _ _ _ _ Hw E3 Hn E1 E2)) as Hf.
    split; [exact Hf|]. split; [exact W1|]. split; [exact W2|]. unfold text_of in *.
    destruct (write_body opts_whole c false (mkW [] [] (part n content))) as [r1 s1] eqn:F1. cbn [fst] in W1. subst r1.
    destruct (write_body opts_whole c false (mkW [] [] (entire content))) as [r2 s2] eqn:F2.
    destruct (C150 _ _ _ _ _ _ _ _ _ _ _ Hf F1 F2) as [more Em]. cbn [snd] in *. exists more. split; [|exact Em].
    intros ->. rewrite app_nil_r in Em. now rewrite Em in Hl. }
  split; [|split]; apply K; try (vm_compute; reflexivity); try (vm_compute; discriminate);
    try (intros n Hn; vm_compute in Hn; injection Hn as <-; discriminate);
    match goal with |- whole_lines ?x => right; exists (less x); vm_compute; reflexivity end.
Qed.

(** A last mark that cannot be written (FFI 1001, no value of the variable):
    writing raises, and the first mark is in the file all the same. *)
Definition short_1001 : na whole := upd (part 19 typed_1001) kX (PList [PNum (Whole 0); PNum (Whole 1)]).
Example C150_raises : first_marks C1001 (part 19 typed_1001) short_1001 /\ exists e,
  fst (write_body opts_whole C1001 false (mkW [] [] short_1001)) = Err e /\
  text_of C1001 short_1001 = text_of C1001 (part 19 typed_1001).
Proof.
  split.
  - split; [|split].
    + eexists _, _. split; [vm_compute; reflexivity|]. split; [vm_compute; reflexivity|]. repeat constructor.
    + right. exists [PNum (Whole 0)], [PNum (Whole 1)]. split; vm_compute; reflexivity.
    + intros k Hk. unfold short_1001. destruct k; try reflexivity; exfalso; apply Hk; cbn; tauto.
  - eexists. split; vm_compute; reflexivity.
Qed.
