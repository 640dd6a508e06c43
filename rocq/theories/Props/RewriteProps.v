(** Property C100: what nappy reads it can write again.

    [rewrites] and [tidy] are in Spec/RewriteSpec.v.  No well-formedness of the
    dictionary is assumed: it comes from the file. *)
From Coq Require Import List NArith ZArith Bool Lia.
From Verif Require Import Py.Str Py.Res Py.Num Model.Dict Model.TextParser Model.CommonUtils Model.NAWrite Model.NARead
  Spec.TextSpec Spec.Records Spec.RoundTripSpec Spec.RewriteSpec Spec.Samples Spec.WholeNum Spec.RecordSamples
  Proofs.StrLemmas Proofs.RTHead Proofs.RT1 Proofs.RT2 Proofs.RT3 Proofs.RT4 Proofs.RT5 Proofs.RT6 Proofs.ReadFrame Proofs.ReadFile Proofs.ReadText Spec.IgnoredSpec Proofs.Ignored Proofs.Rewrite Proofs.SampleOk Props.RoundTrip.
Import ListNotations.

Section C100.
Context {num : Type} `{NumOps num}.
Lemma find_rw (g : num -> num) items k :
  match find (fun p => key_beq (fst p) k) (map (rw g) items) with Some p => Some (snd p) | None => None end =
  option_map (rewritten g k) (match find (fun p => key_beq (fst p) k) items with Some p => Some (snd p) | None => None end).
Proof.
  induction items as [|[k' v] items IH]; [reflexivity|]. cbn [map find rw fst snd]. destruct (key_beq k' k) eqn:E; [|exact IH].
  apply key_beq_true in E. subst. reflexivity.
Qed.
Lemma no_line_ahead o c (d : na num) items : comes_back o c d items -> comes_back_behind o c d [] items.
Proof. intros Cb h. destruct (Cb h) as (file & hdr & d2 & E & data & d' & E1 & E2 & E3). exists file, hdr, d2. split; [exact E|]. exists data, d'. cbn [length]. rewrite Nat.add_0_r. auto. Qed.
Lemma rewrites_intro o (g : num -> num) c d items items' texts : kept_ahead c d = map PStr texts -> comes_back_behind o c d texts items' ->
  has d items -> exactly d items -> items' = map (rw g) items -> rewrites o g c d.
Proof.
  intros Ek Cb Hh Hx ->. unfold rewrites. cbv zeta. rewrite Ek, map_length. intros h. destruct (Cb h) as (file & hdr & d2 & E & data & d' & _ & Er & Hd).
  exists (unlines texts ++ file), hdr, d2, d'.
  split; [exact E|]. split; [exact Er|]. split; [|split; rewrite Hd; reflexivity].
  intros k N1 N2. rewrite Hd. cbn [app find fst].
  destruct (key_beq kNLHEAD k) eqn:E1; [apply key_beq_true in E1; congruence|]. destruct (key_beq kIGN k) eqn:E2; [apply key_beq_true in E2; congruence|].
  rewrite find_rw. f_equal. destruct (find (fun p => key_beq (fst p) k) items) as [[k' v]|] eqn:F.
  - apply find_some in F as [I F]. cbn in F. apply key_beq_true in F. subst k'. symmetry. exact (Hh _ _ I).
  - symmetry. apply Hx; auto. intros I. apply in_map_iff in I as ([k' v] & <- & I). eapply find_none in F; [|exact I].
    cbn in F. congruence || (rewrite key_beq_refl in F; discriminate).
Qed.
Lemma lines_read content ignore (d : na num) : read_file content ignore = Ok (C2160, d) ->
  exists texts, d kIGN = Some (strs_pv texts) /\ Forall clean texts.
Proof.
  intros Hr. unfold read_file in Hr. destruct (openNAFile_r content ignore) as [[c h]|] eqn:Eo; [|discriminate]. cbn [bindR fst snd] in Hr.
  destruct (readData h c content) as [d0|] eqn:Ed; [|discriminate]. cbn [bindR] in Hr. injection Hr as -> ->.
  pose proof (header_clean _ _ _ _ Eo) as C. destruct (top_line_read _ _ _ _ Eo) as (nlh & ffi & _ & Hh & _).
  destruct (hr_common _ _ _ _ Hh) as (ffi' & nlh' & M). destruct (mr_ign _ _ _ _ _ M) as (l & El & Ft & _).
  rewrite (readData_frame _ _ _ _ Ed) by (cbn; intuition discriminate).
  assert (exists texts, l = map PStr texts) as [texts ->].
  { clear -Ft. induction Ft as [|v l [s ->] _ [ts ->]]; [now exists []|]. now exists (s :: ts). }
  exists texts. split; [exact El|]. destruct (C _ _ El) as [_ K]. specialize (K _ eq_refl). rewrite Forall_map in K.
  eapply Forall_impl; [|exact K]. intros s Hs. exact (Hs s eq_refl).
Qed.
End C100.

(** Missing from the full claim: the files that are excluded by [tidy] (the
    first kind is refuted below). *)
Theorem C100_rewrites_partial : forall num (Num : NumOps num) (o : opts num) g content ignore c (d : na num),
  plain_opts o g -> read_file content ignore = Ok (c, d) -> tidy g c d ->
  rewrites o g c d /\ (fmt_stable (o_fmt o) g -> same_behind o (length (kept_ahead c d)) c d).
Proof.
  intros num Num o g content ignore c d (P1 & P2 & P3 & P4) Hr Ht.
  assert (Hn : exists nlh, attr d kNLHEAD = PInt nlh).
  { destruct (read_file_inv _ _ _ _ Hr) as (h & line & Hh & _ & Fr & _). destruct (hr_common _ _ _ _ Hh) as (ffi & nlh & M).
    pose proof (mr_nlh _ _ _ _ _ M) as K. exists (nlh + ignore)%Z. unfold attr. rewrite Fr, K; [reflexivity|]. cbn. intuition discriminate. }
  destruct Hn as [nlh Hn].
  destruct c.
  - destruct (record1001 g _ _ _ Hr Ht) as (r & O & F & Hh & Hx & E). split; [eapply (rewrites_intro _ _ _ _ _ _ []); eauto; eapply no_line_ahead, rt1001; eauto|intros; eapply again1001; eauto].
  - destruct (record1010 g _ _ _ Hr Ht) as (r & O & F & Hh & Hx & E). split; [eapply (rewrites_intro _ _ _ _ _ _ []); eauto; eapply no_line_ahead, rt1010; eauto|intros; eapply again1010; eauto].
  - destruct (record1020 g _ _ _ Hr Ht) as (r & O & F & Hh & Hx & E). split; [eapply (rewrites_intro _ _ _ _ _ _ []); eauto; eapply no_line_ahead, rt1020; eauto|intros; eapply again1020; eauto].
  - destruct (record2010 g C2010 _ _ _ ltac:(cbn; tauto) Hr Ht) as (r & Fm & O & P & F & Hh & Hx & E). split; [eapply (rewrites_intro _ _ _ _ _ _ []); eauto; eapply no_line_ahead, rt2010; eauto|intros; eapply again2010; eauto].
  - destruct (record2110 g _ _ _ Hr Ht) as (r & O & F & Hh & Hx & E). split; [eapply (rewrites_intro _ _ _ _ _ _ []); eauto; eapply no_line_ahead, rt2110; eauto|intros; eapply again2110; eauto].
  - destruct (record2160 g _ _ _ Hr Ht) as (r & O & F & Hh & Hx & E). destruct (ti_chars g C2160 d Ht eq_refl) as [Hi _].
    destruct (lines_read _ _ _ Hr) as (texts & Ei & Ct).
    assert (Nt : Forall name_ok texts).
    { apply Forall_forall. intros s I. rewrite Forall_forall in Ct. split; [exact (Ct s I)|]. apply (Hi _ s Ei). now apply in_map. }
    assert (Ea : attr d kIGN = strs_pv texts) by (unfold attr; now rewrite Ei).
    assert (Ek : kept_ahead C2160 d = map PStr texts) by (unfold kept_ahead; now rewrite Ei).
    split; [eapply (rewrites_intro _ _ _ _ _ _ texts); eauto; eapply behind2160; eauto|].
    intros. rewrite Ek, map_length. eapply same_behind2160; eauto.
  - destruct (record2310 g _ _ _ Hr Ht) as (r & O & F & Hh & Hx & E). split; [eapply (rewrites_intro _ _ _ _ _ _ []); eauto; eapply no_line_ahead, rt2310; eauto|intros; eapply again2310; eauto].
  - destruct (record2010 g C3010 _ _ _ ltac:(cbn; tauto) Hr Ht) as (r & Fm & O & P & F & Hh & Hx & E). split; [eapply (rewrites_intro _ _ _ _ _ _ []); eauto; eapply no_line_ahead, rt2010; eauto|intros; eapply again2010; eauto].
  - destruct (record2010 g C4010 _ _ _ ltac:(cbn; tauto) Hr Ht) as (r & Fm & O & P & F & Hh & Hx & E). split; [eapply (rewrites_intro _ _ _ _ _ _ []); eauto; eapply no_line_ahead, rt2010; eauto|intros; eapply again2010; eauto].
Qed.

(** Files as a person may have typed them: varying spaces, two values of a
    list on different lines, an annotated title. *)
Definition typed_1001 : str := unlines (map lit
  ["18 1001"; "  Jones, A.   {author}"; "Org"; "Src"; "Mission"; "1 1"; "1999 01 01    2000 2 2"; "0"; "height (m)"; "2"; "1"; "10"; "-9 -99";
   "temp (K)"; "ozone"; "0"; "1"; "remark  "; "0   280 1"; "10 281"; "  2"]%pylit).
Definition typed_2010 : str := unlines (map lit
  ["19 2010"; "Jones, A."; "Org"; "Src"; "Mission"; "1 1"; "1999 1 1 2000 2 2"; "0 1"; "3"; "2"; "10 20"; "lat"; "time"; "1"; "1"; "-9";
   "temp (K)"; "0"; "0"; "0"; "5"; "1 2 3"; "1"; "4  5"; "6"]%pylit).
Definition typed_2160 : str := unlines (map lit
  ["25 2160"; "Jones, A."; "Org"; "Src"; "Mission"; "1 1"; "1999 1 1 2000 2 2"; "0"; "10"; "height (m)"; "site"; "1"; "1"; "-9"; "temp (K)";
   "2"; "1"; "1"; "-9"; "20"; "zzz"; "levels"; "observer"; "0"; "0"; "Bonn"; "2"; "Smith, B.  "; "0 280"; "10"; "281"; "Rome"; "1"; "C. Rossi"; " 0  290"]%pylit).
Definition typed_2310 : str := unlines (map lit
  ["22 2310"; "Jones, A."; "Org"; "Src"; "Mission"; "1 1"; "1999 1 1 2000 2 2"; "0"; "height (m)"; "time"; "1"; "1"; "-9"; "temp (K)";
   "3"; "1 1 1"; "-9 -9 -9"; "levels"; "start"; "step"; "0"; "0"; "1  2 100 10"; "280 281"; "5 1 100"; "5"; "290"]%pylit).
Lemma plain_title_of s : title_okb s = true -> plain_title s.
Proof. intros K. destruct (title_ok_of _ K) as ((_ & A & B) & C & D). split; [split; assumption|]. auto. Qed.
Lemma plain_text_of s : name_okb s = true -> plain_text s.
Proof. intros K. destruct (name_ok_of _ K) as (_ & A & B). split; assumption. Qed.
Ltac no_chr := let I := fresh in intros I; vm_compute in I; repeat (destruct I as [I | I]; [discriminate I|]); destruct I.
Ltac no_token := split; [|split]; no_chr.
Ltac number_of := eexists; split; [|split; [reflexivity|reflexivity]]; vm_compute; discriminate.
Ltac tidied :=
  split;
  [ intros k s I E; repeat (destruct I as [<- | I]; [vm_compute in E; first [discriminate E | injection E as <-; apply plain_title_of; reflexivity]|]); destruct I
  | intros k l s I E J; repeat (destruct I as [<- | I]; [vm_compute in E; first [discriminate E | injection E as <-; repeat (destruct J as [J | J]; [injection J as <-; apply plain_text_of; reflexivity|]); destruct J]|]); destruct I
  | intros kn kl n l I E J; repeat (destruct I as [I | I]; [injection I as <- <-; vm_compute in E, J; first [discriminate E | discriminate J | injection E as <-; injection J as <-; reflexivity]|]); destruct I
  | intros n l E J; vm_compute in E, J; first [discriminate E | discriminate J | injection E as <-; injection J as <-; vm_compute; reflexivity]
  | intros n E; vm_compute in E; first [discriminate E | injection E as <-; reflexivity]
  | intros I l n E J; first [exfalso; repeat (destruct I as [I | I]; [discriminate I|]); exact I |
      vm_compute in E; first [discriminate E | injection E as <-; repeat (destruct J as [J | J]; [injection J as <-; reflexivity|]); destruct J]]
  | intros I x0 xs l E J; vm_compute in E, J; first [discriminate J | injection E as <- <-; injection J as <-; split; [reflexivity | repeat constructor; intros y Y; injection Y as <-; reflexivity]]
  | intros I; first [exfalso; repeat (destruct I as [I | I]; [discriminate I|]); exact I |
      split; [vm_compute; discriminate|]; intros a ar x E J; vm_compute in E; injection E as <- <-; repeat (destruct J as [J | J]; [injection J as <-; number_of|]); destruct J]
  | intros I; first [discriminate I |
      split; [reflexivity|]; split; [intros n E; vm_compute in E; injection E as <-; vm_compute; discriminate|]; intros; assumption]
  | intros I; first [discriminate I |
      split; [intros l s E J; vm_compute in E; injection E as <-; repeat (destruct J as [J | J]; [injection J as <-; apply plain_text_of; reflexivity|]); destruct J|]; split; [|split];
      [ intros l s p E J; vm_compute in E; injection E as <-; repeat (destruct J as [J | J]; [injection J as <- <-; no_token|]); destruct J
      | intros l s E J; vm_compute in E; injection E as <-; repeat (destruct J as [J | J]; [first [discriminate J | injection J as <-; no_token]|]); destruct J
      | intros l a s E J K; vm_compute in E; injection E as <-;
        repeat (destruct J as [J | J]; [injection J as <-;
          repeat (destruct K as [K | K]; [first [discriminate K | injection K as <-;
            split; [apply plain_text_of; reflexivity|]; split; [discriminate|];
            let t := fresh in let Q := fresh in intros t Q; apply (f_equal (@rev chr)) in Q; rewrite rev_app_distr in Q; discriminate Q]|]); destruct K|]); destruct J ]] ].
Definition dict_or (r : Res (cls * na whole)) : na whole := match r with Ok (_, d) => d | Err _ => na_empty end.
Example C100_example : exists d, read_file typed_1001 0 = Ok (C1001, d) /\ tidy (fun x : whole => x) C1001 d /\ rewrites opts_whole (fun x => x) C1001 d /\ same_again opts_whole C1001 d.
Proof.
  exists (dict_or (read_file typed_1001 0)). assert (E : read_file typed_1001 0 = Ok (C1001, dict_or (read_file typed_1001 0))) by (vm_compute; reflexivity).
  assert (T : tidy (fun x : whole => x) C1001 (dict_or (read_file typed_1001 0))) by (clear E; tidied).
  split; [exact E|]. split; [exact T|]. destruct (C100_rewrites_partial _ _ _ _ _ _ _ _ plain_whole E T) as [K1 K2].
  split; [exact K1|]. apply K2, stable_whole.
Qed.
Example C100_example_2010 : exists d, read_file typed_2010 0 = Ok (C2010, d) /\ tidy (fun x : whole => x) C2010 d /\ rewrites opts_whole (fun x => x) C2010 d /\ same_again opts_whole C2010 d.
Proof.
  exists (dict_or (read_file typed_2010 0)). assert (E : read_file typed_2010 0 = Ok (C2010, dict_or (read_file typed_2010 0))) by (vm_compute; reflexivity).
  assert (T : tidy (fun x : whole => x) C2010 (dict_or (read_file typed_2010 0))) by (clear E; tidied).
  split; [exact E|]. split; [exact T|]. destruct (C100_rewrites_partial _ _ _ _ _ _ _ _ plain_whole E T) as [K1 K2].
  split; [exact K1|]. apply K2, stable_whole.
Qed.
Example C100_example_2160 : exists d, read_file typed_2160 0 = Ok (C2160, d) /\ tidy (fun x : whole => x) C2160 d /\ rewrites opts_whole (fun x => x) C2160 d /\ same_again opts_whole C2160 d.
Proof.
  exists (dict_or (read_file typed_2160 0)). assert (E : read_file typed_2160 0 = Ok (C2160, dict_or (read_file typed_2160 0))) by (vm_compute; reflexivity).
  assert (T : tidy (fun x : whole => x) C2160 (dict_or (read_file typed_2160 0))) by (clear E; tidied).
  split; [exact E|]. split; [exact T|]. destruct (C100_rewrites_partial _ _ _ _ _ _ _ _ plain_whole E T) as [K1 K2].
  split; [exact K1|]. apply K2, stable_whole.
Qed.
(** Two lines in front of the header are kept. *)
Definition ahead_2160 : str := unlines (map lit ["exported 2004-01-14"; ""]%pylit) ++ typed_2160.
Example C100_example_ahead : exists d, read_file ahead_2160 2 = Ok (C2160, d) /\ tidy (fun x : whole => x) C2160 d /\
  rewrites opts_whole (fun x => x) C2160 d /\ same_behind opts_whole 2 C2160 d /\ kept_ahead C2160 d = [PStr (lit "exported 2004-01-14"); PStr []].
Proof.
  exists (dict_or (read_file ahead_2160 2)). assert (E : read_file ahead_2160 2 = Ok (C2160, dict_or (read_file ahead_2160 2))) by (vm_compute; reflexivity).
  assert (T : tidy (fun x : whole => x) C2160 (dict_or (read_file ahead_2160 2))) by (clear E; tidied).
  split; [exact E|]. split; [exact T|]. destruct (C100_rewrites_partial _ _ _ _ _ _ _ _ plain_whole E T) as [K1 K2].
  split; [exact K1|]. split; [|vm_compute; reflexivity]. exact (K2 (proj2 stable_whole)).
Qed.
Example C100_example_2310 : exists d, read_file typed_2310 0 = Ok (C2310, d) /\ tidy (fun x : whole => x) C2310 d /\ rewrites opts_whole (fun x => x) C2310 d /\ same_again opts_whole C2310 d.
Proof.
  exists (dict_or (read_file typed_2310 0)). assert (E : read_file typed_2310 0 = Ok (C2310, dict_or (read_file typed_2310 0))) by (vm_compute; reflexivity).
  assert (T : tidy (fun x : whole => x) C2310 (dict_or (read_file typed_2310 0))) by (clear E; tidied).
  split; [exact E|]. split; [exact T|]. destruct (C100_rewrites_partial _ _ _ _ _ _ _ _ plain_whole E T) as [K1 K2].
  split; [exact K1|]. apply K2, stable_whole.
Qed.
(** False of the code for other files: a file without the name of the author is
    read, but cannot be written again, since [stripQuotes] fails on the empty text;
    and double quotes around a title get lost. *)
Definition without_author : str := unlines (map lit
  ["15 1001"; ""; "Org"; "Src"; "Mission"; "1 1"; "1999 1 1 2000 2 2"; "0"; "height (m)"; "1"; "1"; "-9"; "temp (K)"; "0"; "0"; "0 280"]%pylit).
Definition quoted_org (q : str) : str := unlines (map lit ["15 1001"; "Jones, A."]%pylit ++ [q ++ lit "Org" ++ q] ++ map lit
  ["Src"; "Mission"; "1 1"; "1999 1 1 2000 2 2"; "0"; "height (m)"; "1"; "1"; "-9"; "temp (K)"; "0"; "0"; "0 280"]%pylit).
Theorem C100_refuted : exists content (d : na whole) st e,
  read_file content 0 = Ok (C1001, d) /\ attr d kONAME = PStr [] /\ write_body opts_whole C1001 false (mkW [] [] d) = (Err e, st).
Proof.
  exists without_author, (dict_or (read_file without_author 0)). eexists. eexists.
  split; [vm_compute; reflexivity|]. split; vm_compute; reflexivity.
Qed.
Theorem C100_quotes_refuted : exists q (d : na whole) st (d' : na whole), q = [c_dquote] /\
  read_file (quoted_org q) 0 = Ok (C1001, d) /\ write_body opts_whole C1001 false (mkW [] [] d) = (Ok tt, st) /\
  read_file (w_file st) 0 = Ok (C1001, d') /\ attr d kORG = PStr (q ++ lit "Org" ++ q) /\ attr d' kORG = PStr (lit "Org").
Proof.
  exists [c_dquote]. set (q := [c_dquote]). exists (dict_or (read_file (quoted_org q) 0)),
    (snd (write_body opts_whole C1001 false (mkW [] [] (dict_or (read_file (quoted_org q) 0))))),
    (dict_or (read_file (w_file (snd (write_body opts_whole C1001 false (mkW [] [] (dict_or (read_file (quoted_org q) 0)))))) 0)).
  repeat split; vm_compute; reflexivity.
Qed.

Print Assumptions C100_rewrites_partial.
Print Assumptions C100_refuted.
Print Assumptions C100_quotes_refuted.
