(** Writing a dictionary with ignored header lines. *)
From Coq Require Import List NArith ZArith Bool Lia.
From Verif Require Import Py.Str Py.Res Py.Num Model.Dict Model.TextParser Model.CommonUtils Model.NAWrite Model.NARead
  Spec.TextSpec Spec.Records Spec.LineSpec Spec.RoundTripSpec Spec.IgnoredSpec
  Proofs.StrLemmas Proofs.NumLemmas Proofs.TextLemmas Proofs.HeaderLemmas Proofs.WriteFrame Proofs.WriteSim Proofs.RTText Proofs.RTHead Proofs.RTRead Proofs.RTData
  Proofs.ReadFrame Proofs.ReadFile Proofs.RT1 Proofs.RT5 Proofs.RT6 Proofs.RT7 Props.ReadInvariance.
Import ListNotations.

Local Ltac nodup := repeat (constructor; [cbn; intuition discriminate|]); constructor.
Section Ignored.
Context {num : Type} `{NumOps num}.
Variable o : opts num.
Local Notation na := (na num).
(** All keys but the ignored lines. *)
Definition other : key -> bool := fun k => match k with kIGN => false | _ => true end.
Ltac resp_tac := repeat first
  [ apply resp_const | (apply resp_self; reflexivity) | apply resp_fwrite | apply resp_hwrite
  | apply resp_reset | (apply resp_reverse; reflexivity)
  | (apply resp_fix; reflexivity) | apply resp_flush
  | (apply resp_forW; intros) | (apply resp_bind; [|intros])
  | match goal with
    | |- resp _ _ (if ?b then _ else _) => destruct b
    | |- resp _ _ (match ?l with [] => _ | _ => _ end) => destruct l
    | |- resp _ _ (match ?l with PNone => _ | _ => _ end) => destruct l
    end ].
Ltac unfold_all := unfold writeCommonHeader, writeVariablesHeaderSection, writeAuxVariablesHeaderSection,
  writeAuxVariablesHeaderSection_2160, writeComments,
  writeHeader_1001, writeHeader_1010, writeHeader_1020, writeHeader_2010, writeHeader_2110, writeHeader_2310,
  writeData_1001, writeData_1010, writeData_1020, writeData_2010, writeData_2110,
      writeData_2160, writeData_2310, write_x_aux, write_inner_2110, write_data_line, wrapLine, wrapLines,
      hwrap, hwraps, self_int, self_list, retW, liftW.
Lemma other_data c : resp other true (writeData o c).
Proof. destruct c; cbn [writeData]; unfold_all; resp_tac. Qed.
Lemma other_header c : c <> C2160 -> resp other true (writeHeader o c).
Proof. destruct c; intros Hc; try congruence; cbn [writeHeader]; unfold_all; resp_tac. Qed.
(** The header of FFI 2160 after the ignored lines. *)
Lemma other_2160 : exists rest : W num unit, resp other true rest /\ forall s, writeHeader o C2160 s = bindW ign2160 (fun _ => rest) s.
Proof.
  eexists. split; [|intros s; cbn [writeHeader]; unfold writeHeader_2160; reflexivity].
  unfold_all. resp_tac.
Qed.
Lemma other_body c nh : c <> C2160 \/ nh = true -> resp other true (write_body o c nh).
Proof.
  intros Hc. unfold write_body. apply resp_bind; [apply resp_reset|]. intros _. apply resp_bind; [|intros _; apply other_data].
  destruct nh; [apply resp_const|]. destruct Hc as [Hc | Hc]; [now apply other_header|discriminate].
Qed.
Definition no_lines (d : na) : Prop := d kIGN = None \/ d kIGN = Some PNone \/ d kIGN = Some (PList []).
Lemma ign_none f h (d : na) : no_lines d -> ign2160 (mkW f h d) = (Ok tt, mkW f h d).
Proof. intros Hd. unfold ign2160, bindW, self, attr. cbn [w_na]. destruct Hd as [E | [E | E]]; rewrite E; reflexivity. Qed.
Lemma join_unlines texts : texts <> [] -> join nl texts ++ nl = unlines texts.
Proof.
  induction texts as [|t texts IH]; [congruence|]. intros _. destruct texts as [|u texts].
  - cbn. now rewrite app_nil_r.
  - specialize (IH ltac:(discriminate)). change (join nl (t :: u :: texts)) with (t ++ nl ++ join nl (u :: texts)).
    rewrite <- !app_assoc, IH. unfold unlines. cbn [map concat]. now rewrite <- !app_assoc.
Qed.
Lemma ign_lines f h (d : na) texts : attr d kIGN = strs_pv texts ->
  ign2160 (mkW f h d) = (Ok tt, mkW (f ++ unlines texts) h d).
Proof.
  intros E. unfold ign2160, bindW, self. cbn [w_na]. rewrite E. unfold strs_pv. destruct texts as [|t texts]; cbn [map].
  { cbn. now rewrite app_nil_r. }
  change (PStr t :: map PStr texts) with (map (@PStr num) (t :: texts)).
  assert (M : mapR (fun v : pyv num => match v with PStr s => Ok s | _ => Err ETypeError end) (map PStr (t :: texts)) = Ok (t :: texts)).
  { generalize (t :: texts). intros l. induction l as [|s l IH]; [reflexivity|]. cbn [map mapR bindR]. now rewrite IH. }
  unfold liftW. cbn [map] in M |- *. rewrite M. unfold fwrite. cbn [w_file w_head w_na]. now rewrite <- app_assoc, join_unlines by discriminate.
Qed.
(** The same dictionary with and without lines. *)
Lemma behind_body f f' h h' (d d0 : na) texts : agree other d d0 -> attr d kIGN = strs_pv texts -> no_lines d0 ->
  let x := write_body o C2160 false (mkW f h d) in let y := write_body o C2160 false (mkW f' h' d0) in
  fst x = fst y /\ agree other (w_na (snd x)) (w_na (snd y)) /\ w_head (snd x) = w_head (snd y) /\
  exists t, w_file (snd x) = f ++ unlines texts ++ t /\ w_file (snd y) = f' ++ t.
Proof.
  intros Ag E N. destruct other_2160 as (rest & Hr & Eh).
  assert (B : forall s, write_body o C2160 false s = bindW ign2160 (fun _ => bindW rest (fun _ => writeData o C2160)) (mkW (w_file s) [] (w_na s))).
  { intros s. unfold write_body, bindW at 1. cbn [fst snd]. unfold bindW at 1. rewrite Eh. unfold bindW.
    destruct (ign2160 (mkW (w_file s) [] (w_na s))) as [[u|e] s1]; [|reflexivity]. destruct (rest s1) as [[u'|e] s2]; reflexivity. }
  assert (Bx : write_body o C2160 false (mkW f h d) = bindW rest (fun _ => writeData o C2160) (mkW (f ++ unlines texts) [] d)).
  { rewrite B. unfold bindW at 1. cbn [w_file w_na]. now rewrite (ign_lines f [] d texts E). }
  assert (By : write_body o C2160 false (mkW f' h' d0) = bindW rest (fun _ => writeData o C2160) (mkW f' [] d0)).
  { rewrite B. unfold bindW at 1. cbn [w_file w_na]. now rewrite (ign_none f' [] d0 N). }
  cbv zeta. rewrite Bx, By.
  assert (R : resp other true (bindW rest (fun _ => writeData o C2160))) by (apply resp_bind; [exact Hr|intros _; apply other_data]).
  destruct (R (mkW (f ++ unlines texts) [] d) (mkW f' [] d0)) as (E1 & (A & Hd) & t & T1 & T2); [split; [exact Ag|reflexivity]|].
  split; [exact E1|]. split; [exact A|]. split; [now apply Hd|]. exists t. split; [|exact T2]. rewrite T1. cbn [w_file]. now rewrite <- app_assoc.
Qed.
Lemma without (d : na) : agree other d (upd d kIGN (PList [])) /\ no_lines (upd d kIGN (PList [])).
Proof. split; [intros k Hk; destruct k; try reflexivity; discriminate|right; right; reflexivity]. Qed.

(** Reading behind the lines. *)
Lemma read_behind texts file c (d : na) n : Forall name_ok texts -> read_file file 0 = Ok (c, d) -> d kNLHEAD = Some (PInt n) -> (0 <= n)%Z ->
  exists d', read_file (unlines texts ++ file) (Z.of_nat (length texts)) = Ok (c, d') /\
    (forall k, k <> kIGN -> k <> kNLHEAD -> d' k = d k) /\ d' kNLHEAD = Some (PInt (n + Z.of_nat (length texts))) /\ d' kIGN = Some (strs_pv texts).
Proof.
  intros Ht Er En Hn.
  assert (Ho : Forall one_line texts) by (eapply Forall_impl; [|exact Ht]; intros t K; apply K).
  assert (Hneg : forall c h m, openNAFile_r (num:=num) file 0 = Ok (c, h) -> h kNLHEAD = Some (PInt m) -> (0 <= m)%Z).
  { intros c1 h1 m E1 E2. destruct (read_file_inv _ _ _ _ Er) as (h & line & _ & _ & Fr & _).
    unfold read_file in Er. rewrite E1 in Er. cbn [bindR fst snd] in Er. destruct (readData h1 c1 file) as [d0|] eqn:Ed; [|discriminate].
    cbn [bindR] in Er. injection Er as _ ->. pose proof (readData_frame _ _ _ _ Ed kNLHEAD) as K. rewrite K in En; [|cbn; intuition discriminate]. congruence. }
  pose proof (C65_ignored_lines texts file Ho Hneg) as K. rewrite Er in K.
  destruct (read_file (unlines texts ++ file) (Z.of_nat (length texts))) as [[c' d']|e] eqn:E'; [|contradiction].
  destruct K as (-> & K1 & (m & M1 & M2) & (ts & Ei & F)). exists d'. split; [reflexivity|]. split; [exact K1|]. split; [congruence|].
  rewrite Ei. unfold strs_pv. do 3 f_equal. clear -F Ht. induction F as [|l t ls ts [_ F] _ IH]; [reflexivity|]. inversion Ht; subst. f_equal; auto.
Qed.

Definition ahead_items (n : nat) (texts : list str) : list (key * pyv num) :=
  [(kNLHEAD, PInt (Z.of_nat (n + length texts))); (kIGN, strs_pv texts)].
(** [comes_back_as] with lines in front. *)
Definition behind_as (d : na) texts items L : Prop :=
  forall h, exists hdr d2,
    write_body o C2160 false (mkW [] h d) = (Ok tt, mkW (unlines texts ++ unlines L) hdr d2) /\
    exists data d', unlines L = hdr ++ data /\ read_file (unlines texts ++ unlines L) (Z.of_nat (length texts)) = Ok (C2160, d') /\
      is_dict d' (ahead_items (count_chr c_nl hdr) texts ++ items).
Lemma behind_as_intro d texts items L : attr d kIGN = strs_pv texts -> Forall name_ok texts ->
  comes_back_as o C2160 (upd d kIGN (PList [])) items L -> behind_as d texts items L.
Proof.
  intros E Ht Cb h. destruct (Cb h) as (hdr & d2 & Ew & data & d1 & Ef & Er & Hi). destruct (without d) as [Ag N].
  pose proof (behind_body [] [] h h d _ texts Ag E N) as K. cbv zeta in K. rewrite Ew in K. cbn [fst snd w_na w_head w_file app] in K.
  destruct (write_body o C2160 false (mkW [] h d)) as [r st]. cbn [fst snd] in K. destruct K as (-> & _ & Eh & t & Et & <-).
  exists hdr, (w_na st). split; [destruct st; cbn in *; congruence|]. exists data.
  assert (En : d1 kNLHEAD = Some (PInt (Z.of_nat (count_chr c_nl hdr)))) by (rewrite Hi; reflexivity).
  destruct (read_behind texts (unlines L) C2160 d1 _ Ht Er En ltac:(lia)) as (d' & Er' & K1 & K2 & K3).
  exists d'. split; [exact Ef|]. split; [exact Er'|]. intros k. unfold ahead_items. cbn [app find fst].
  destruct (key_beq kNLHEAD k) eqn:E1; [apply key_beq_true in E1; subst k; rewrite K2; cbn [snd]; do 2 f_equal; lia|].
  destruct (key_beq kIGN k) eqn:E2; [apply key_beq_true in E2; subst k; exact K3|].
  rewrite K1 by (intros ->; discriminate). rewrite Hi. unfold read_items. cbn [app find fst]. now rewrite E1, E2.
Qed.
Lemma behind_has d n texts items : NoDup (map fst (ahead_items n texts ++ items)) -> is_dict d (ahead_items n texts ++ items) ->
  has d items /\ attr d kNLHEAD = PInt (Z.of_nat (n + length texts)) /\ attr d kIGN = strs_pv texts.
Proof.
  intros Hn Hi. pose proof (is_dict_has _ _ Hn Hi) as K. repeat split.
  - intros k v Hk. apply K, in_or_app. now right.
  - unfold attr. rewrite (K kNLHEAD (PInt (Z.of_nat (n + length texts)))); [reflexivity|]. now left.
  - unfold attr. rewrite (K kIGN (strs_pv texts)); [reflexivity|]. right. now left.
Qed.
Lemma behind_comes_back d texts items L : behind_as d texts items L -> comes_back_behind o C2160 d texts items.
Proof.
  intros K h. destruct (K h) as (hdr & d2 & E & data & d' & E1 & E2 & E3). exists (unlines L), hdr, d2. split; [exact E|]. exists data, d'. auto.
Qed.
Hypothesis Hann : o_annot o = false.
Hypothesis Hd : delim_ok (o_delim o).
Hypothesis Hs : str_law.
Variable g : num -> num.
Hypothesis Hf : fmt_law (o_fmt o) g.

Theorem behind2160_as r d nlh texts : ok2160 g r -> has d (items2160 r) -> attr d kNLHEAD = PInt nlh ->
  attr d kIGN = strs_pv texts -> Forall name_ok texts -> behind_as d texts (items2160 (norm2160 g r)) (lines2160 o r).
Proof.
  intros Hr Hh Hn Hi Ht. apply behind_as_intro; auto. eapply rt2160_as; eauto.
  intros k v I. rewrite upd_other; [now apply Hh|]. intros <-. unfold items2160 in I. cbn in I. intuition discriminate.
Qed.
Theorem behind2160 r d nlh texts : ok2160 g r -> has d (items2160 r) -> attr d kNLHEAD = PInt nlh ->
  attr d kIGN = strs_pv texts -> Forall name_ok texts -> comes_back_behind o C2160 d texts (items2160 (norm2160 g r)).
Proof. intros. eapply behind_comes_back, behind2160_as; eauto. Qed.
Hypothesis Hst : fmt_stable (o_fmt o) g.
Theorem same_behind2160 r d nlh texts : ok2160 g r -> floats2160 r -> has d (items2160 r) -> attr d kNLHEAD = PInt nlh ->
  attr d kIGN = strs_pv texts -> Forall name_ok texts -> same_behind o (length texts) C2160 d.
Proof.
  intros Hr Fl Hh Hn Hi Ht h h'. destruct (behind2160_as r d nlh texts Hr Hh Hn Hi Ht h) as (hdr & d2 & E & data & d' & E1 & E2 & E3).
  apply behind_has in E3 as (K1 & K2 & K3); [|unfold ahead_items, items2160; nodup].
  assert (B : behind_as d' texts (items2160 (norm2160 g (norm2160 g r))) (lines2160 o (norm2160 g r))) by (eapply behind2160_as; eauto using ok_norm2160).
  rewrite lines_norm2160 in B by auto. destruct (B h') as (hdr' & d2' & E' & _).
  exists (unlines texts ++ unlines (lines2160 o r)), hdr, d2, d', hdr', d2'. auto.
Qed.
Lemma behind_head d texts items L h hdr d2 n : behind_as d texts items L -> attr d kIGN = strs_pv texts ->
  (forall file hdr d2, write_body o C2160 false (mkW [] h (upd d kIGN (PList []))) = (Ok tt, mkW file hdr d2) -> count_chr c_nl hdr = n) ->
  write_body o C2160 false (mkW [] h d) = (Ok tt, mkW (unlines texts ++ unlines L) hdr d2) -> count_chr c_nl hdr = n.
Proof.
  intros _ Hi N E. destruct (without d) as [Ag Nl].
  pose proof (behind_body [] [] h h d _ texts Ag Hi Nl) as K. cbv zeta in K. rewrite E in K. cbn [fst snd w_na w_head w_file app] in K.
  destruct (write_body o C2160 false (mkW [] h (upd d kIGN (PList [])))) as [r st] eqn:Ew. cbn [fst snd] in K. destruct K as (Er & _ & Eh & _).
  subst r. rewrite Eh. destruct st as [f1 h1 d1]. cbn [w_head]. eapply N. reflexivity.
Qed.
Theorem settled_behind2160 r d nlh texts : ok2160 g r -> has d (items2160 r) -> attr d kNLHEAD = PInt nlh ->
  attr d kIGN = strs_pv texts -> Forall name_ok texts -> settled_behind o (length texts) C2160 d.
Proof.
  intros Hr Hh Hn Hi Ht h h' h''. set (n := S (length (body2160 o r))).
  assert (Hdr : forall r (d : na) nlh h, ok2160 g r -> has d (items2160 r) -> attr d kNLHEAD = PInt nlh ->
    forall file hdr d2, write_body o C2160 false (mkW [] h (upd d kIGN (PList []))) = (Ok tt, mkW file hdr d2) -> count_chr c_nl hdr = S (length (body2160 o r))).
  { clear - Hann Hd Hs Hf. intros r d nlh h Hr Hh Hn file hdr d2 E.
    assert (Hh' : has (upd d kIGN (PList [])) (items2160 r)).
    { intros k v I. rewrite upd_other; [now apply Hh|]. intros <-. unfold items2160 in I. cbn in I. intuition discriminate. }
    assert (Hn' : attr (upd d kIGN (PList [])) kNLHEAD = PInt nlh) by (unfold attr; rewrite upd_other by discriminate; exact Hn).
    apply (hdr_is o _ _ _ _ _ _ _ _ (fun f => write2160 o Hann Hd Hs g r _ nlh f Hh' Hr Hn' (or_intror (or_intror eq_refl)))) in E. subst hdr.
    apply (count_header o Hd). eapply body2160_one_line; eauto. }
  pose proof (behind2160_as r d nlh texts Hr Hh Hn Hi Ht) as B0.
  destruct (B0 h) as (hdr & d2 & E & data & d1 & E1 & E2 & E3).
  rewrite (behind_head _ _ _ _ _ _ _ _ B0 Hi (Hdr r d nlh h Hr Hh Hn) E) in E3.
  pose proof E3 as E3'. apply behind_has in E3 as (K1 & K2 & K3); [|unfold ahead_items, items2160; nodup].
  pose proof (ok_norm2160 o g Hf Hst r Hr) as Hr'.
  pose proof (behind2160_as _ d1 _ texts Hr' K1 K2 K3 Ht) as B1.
  destruct (B1 h') as (hdr' & d2' & F & data' & d1' & F1 & F2 & F3).
  rewrite (behind_head _ _ _ _ _ _ _ _ B1 K3 (Hdr _ d1 _ h' Hr' K1 K2) F), (body_len2160 o g r), (norm_norm2160 o g Hf Hst r) in F3.
  pose proof F3 as F3'. apply behind_has in F3 as (L1 & L2 & L3); [|unfold ahead_items, items2160; nodup].
  destruct (behind2160_as _ d1' _ texts Hr' L1 L2 L3 Ht h'') as (hdr'' & d2'' & G & _).
  do 5 eexists. split; [exact E|]. split; [exact E2|]. split; [exact F|]. split; [exact F2|]. split; [exact G|]. split; [|reflexivity].
  intros k. now rewrite E3', F3'.
Qed.
End Ignored.
