(** Property C99: what was read once does not change any more.

    [settled] is in Spec/RoundTripSpec.v: write, read, write, read, write; both
    dictionaries that were read agree in every item (comments, scale factors,
    header length and data included), and so do the second and third file. *)
From Coq Require Import List NArith ZArith Bool Lia.
From Verif Require Import Py.Str Py.Res Py.Num Model.Dict Model.TextParser Model.CommonUtils
  Model.NAWrite Model.NARead Spec.TextSpec Spec.Records Spec.RoundTripSpec Spec.Samples Spec.WholeNum Spec.RecordSamples
  Proofs.StrLemmas Proofs.RTHead Proofs.RT1 Proofs.RT2 Proofs.RT3 Proofs.RT4 Proofs.RT5 Proofs.RT6 Proofs.RT7 Spec.IgnoredSpec Proofs.Ignored Proofs.SampleOk
  Props.RoundTrip.
Import ListNotations.

(** Missing from the full claim: 3010 and 4010 files whose axes have lengths that
    are not the same in both directions (C13), 2310 files with several variables
    (C16), and 2160 dictionaries with ignored lines.  In contrast to C17 the
    header numbers may be whole numbers and the comments may have white space at
    the ends: the first reading removes the difference. *)
Theorem C99_settled_partial : forall num (Num : NumOps num) (o : opts num) g (d : na num) nlh,
  stable_opts o g -> attr d kNLHEAD = PInt nlh ->
  (forall r, ok1001 r -> has d (items1001 r) -> settled o C1001 d) /\
  (forall r, ok1010 r -> has d (items1010 r) -> settled o C1010 d) /\
  (forall r, ok1020 r -> has d (items1020 r) -> settled o C1020 d) /\
  (forall r c, (length (r4_nx r) = 1%nat /\ c = C2010 \/ length (r4_nx r) = 2%nat /\ c = C3010 \/
                length (r4_nx r) = 3%nat /\ c = C4010) ->
     rev (map (fun a => length (x_def a)) (r4_axes r)) = map (fun a => length (x_def a)) (r4_axes r) ->
     ok2010 r -> has d (items2010 r) -> settled o c d) /\
  (forall r, ok2110 g r -> has d (items2110 r) -> settled o C2110 d) /\
  (forall r, ok2160 g r -> has d (items2160 r) ->
     d kIGN = Some PNone -> settled o C2160 d) /\
  (forall r texts, ok2160 g r -> has d (items2160 r) ->
     attr d kIGN = strs_pv texts -> Forall name_ok texts -> settled_behind o (length texts) C2160 d) /\
  (forall r, ok2310 g r -> has d (items2310 r) -> settled o C2310 d).
Proof.
  intros num Num o g d nlh ((H1 & H2 & H3 & H4) & H5) Hn.
  split; [intros; eapply settled1001; eauto|]. split; [intros; eapply settled1010; eauto|].
  split; [intros; eapply settled1020; eauto|].
  split; [intros; eapply settled2010; eauto; unfold fam; tauto|].
  split; [intros; eapply settled2110; eauto|]. split; [intros; eapply settled2160; eauto|].
  split; [intros; eapply settled_behind2160; eauto|].
  intros; eapply settled2310; eauto.
Qed.
(** [s1001i] has whole-number scale factors: the first two files differ
    (C17_same_again_refuted), the second and the third do not. *)
Example C99_example : settled opts_whole C1001 (dict_of (items1001 s1001i)).
Proof.
  destruct (C99_settled_partial _ _ _ _ (dict_of (items1001 s1001i)) 17%Z stable_whole eq_refl) as (K & _).
  apply (K s1001i); [apply s1001i_ok|apply dict_of_has; nodup].
Qed.
Example C99_example_2310 : settled opts_whole C2310 (dict_of (items2310 s2310)).
Proof.
  destruct (C99_settled_partial _ _ _ _ (dict_of (items2310 s2310)) 17%Z stable_whole eq_refl) as (_ & _ & _ & _ & _ & _ & _ & K).
  apply (K s2310); [apply s2310_ok|apply dict_of_has; nodup].
Qed.

(** False of the code for FFI 2310 with two variables: their values are mixed
    each time (see C16), and the file changes each time. *)
Theorem C99_refuted : exists (d : na whole) st1 d1 st2 d2 st3,
  write_body opts_whole C2310 false (mkW [] [] d) = (Ok tt, st1) /\ read_file (w_file st1) 0 = Ok (C2310, d1) /\
  write_body opts_whole C2310 false (mkW [] [] d1) = (Ok tt, st2) /\ read_file (w_file st2) 0 = Ok (C2310, d2) /\
  write_body opts_whole C2310 false (mkW [] [] d2) = (Ok tt, st3) /\
  d2 kV <> d1 kV /\ w_file st3 <> w_file st2.
Proof.
  set (w := fun d => snd (write_body opts_whole C2310 false (mkW [] [] d))).
  set (r := fun st : wst whole => match read_file (num:=whole) (w_file st) 0 with Ok (_, d) => d | Err _ => na_empty end).
  exists d2310_two, (w d2310_two), (r (w d2310_two)), (w (r (w d2310_two))), (r (w (r (w d2310_two)))), (w (r (w (r (w d2310_two))))).
  repeat (split; [vm_compute; reflexivity|]). split; vm_compute; discriminate.
Qed.

Print Assumptions C99_settled_partial.
Print Assumptions C99_refuted.
