(** C143: what the comparison of two files prints. *)
From Coq Require Import List NArith ZArith QArith Bool Lia Sorted.
From Verif Require Import Py.Str Py.Res Py.Num Model.CommonUtils Model.CommandLine Model.Compare Model.CompareProg Model.ComparePrint Spec.QNum Proofs.StrLemmas Props.CompareProps.
Import ListNotations.

Section C143.
Context {num : Type} `{NumOps num} `{CmpOps num}.
Local Notation sections_said := (sections_said (num := num)).
Local Notation section_said := (section_said (num := num)).
Local Notation files_said := (files_said (num := num)).
Local Notation lines_agree := (lines_agree (num := num)).

Definition ended {A} (r : Res A) : run A := match r with Ok x => Done x | Err e => Raise e end.
Lemma sections_result nc ap d1 d2 l1 : forall i l2, snd (sections_said i l1 l2 nc ap d1 d2) = ended (compareSections (num := num) l1 l2 nc ap d1 d2).
Proof.
  induction l1 as [| a l1 IH]; intros i [| b l2]; try reflexivity. cbn [ComparePrint.sections_said compareSections]. destruct (line_same nc ap d1 d2 a b) as [s |]; [| reflexivity].
  cbn [quiet bindS say bindR]. specialize (IH (S i) l2). destruct (sections_said (S i) l1 l2 nc ap d1 d2) as [t [r | | e]]; cbn [snd] in IH; destruct (compareSections l1 l2 nc ap d1 d2) as [r' | e'];
    cbn [ended] in IH; try discriminate IH; cbn [bindS snd bindR ended]; congruence.
Qed.
Lemma section_result w f1 f2 nc ap d1 d2 l1 l2 : snd (section_said w f1 f2 l1 l2 nc ap d1 d2) = ended (compareSections (num := num) l1 l2 nc ap d1 d2).
Proof.
  unfold ComparePrint.section_said. rewrite <- (sections_result nc ap d1 d2 l1 1 l2). cbn [say bindS]. destruct (sections_said 1 l1 l2 nc ap d1 d2) as [t [r | | e]]; reflexivity.
Qed.
(** The value returned is the one of the other properties (C44 to C47). *)
Theorem C143_result : forall (disk : str -> option str) f1 f2 c1 c2 header body number_clever approx d1 d2, disk f1 = Some c1 -> disk f2 = Some c2 ->
  snd (files_said disk f1 f2 header body number_clever approx d1 d2) = ended (compNAFiles (num := num) (last_part f1) c1 c2 header body number_clever approx d1 d2).
Proof.
  intros disk f1 f2 c1 c2 h b nc ap d1 d2 E1 E2. unfold ComparePrint.files_said, compNAFiles. destruct (excluded (last_part f1)); [reflexivity |]. rewrite E1, E2. cbv zeta. unfold head_len.
  destruct (nth_res (readlines c1) 0) as [x |]; [| reflexivity]. cbn [bindR]. destruct (split_items d1 x) as [y |]; [| reflexivity]. cbn [bindR].
  destruct (nth_res y 0) as [z |]; [| reflexivity]. cbn [bindR]. destruct (of_opt EValueError (int_of_str z)) as [n1 |]; [| reflexivity]. cbn [bindR quiet bindS].
  destruct (nth_res (readlines c2) 0) as [x' |]; [| reflexivity]. cbn [bindR]. destruct (split_items d2 x') as [y' |]; [| reflexivity]. cbn [bindR].
  destruct (nth_res y' 0) as [z' |]; [| reflexivity]. cbn [bindR]. destruct (of_opt EValueError (int_of_str z')) as [n2 |]; [| reflexivity]. cbn [bindR quiet bindS].
  pose proof (section_result header_words f1 f2 nc ap d1 d2 (slice_to (readlines c1) n1) (slice_to (readlines c2) n2)) as R1.
  pose proof (section_result body_words f1 f2 nc ap d1 d2 (slice_from (readlines c1) n1) (slice_from (readlines c2) n2)) as R2.
  destruct (section_said header_words f1 f2 _ _ nc ap d1 d2) as [t1 r1], (section_said body_words f1 f2 _ _ nc ap d1 d2) as [t2 r2]. cbn [snd] in R1, R2. subst r1 r2.
  destruct h, b; cbn [bindS bindR snd]; repeat (match goal with |- context [compareSections ?a ?b ?c ?d ?e ?f] => destruct (compareSections a b c d e f) end; cbn [bindS bindR snd ended]); reflexivity.
Qed.

(** The lines at position [i] exist and differ. *)
Definition differ_at (nc : bool) (d1 d2 : option str) (l1 l2 : list str) (i : nat) : Prop :=
  exists a b, nth_error l1 i = Some a /\ nth_error l2 i = Some b /\ ~ lines_agree nc d1 d2 (strip a) (strip b).
(** Number and both texts of these lines. *)
Definition shown (l1 l2 : list str) (i : nat) : list str :=
  [lit "Line " ++ dec_of_nat (S i) ++ lit ":"; lit ">>> " ++ strip (nth i l1 []); lit "<<< " ++ strip (nth i l2 [])].
Lemma sections_text nc d1 d2 : d1 <> Some [] -> d2 <> Some [] -> forall l1 l2 i, exists ps,
  StronglySorted lt ps /\ (forall p, In p ps <-> differ_at nc d1 d2 l1 l2 p) /\
  sections_said i l1 l2 nc false d1 d2 = (flat_map (fun p => differs (i + p) (nth p l1 []) (nth p l2 [])) ps, Done (match ps with [] => true | _ => false end)).
Proof.
  intros H1 H2. induction l1 as [| a l1 IH]; intros l2 i.
  { exists []. split; [constructor |]. split; [| destruct l2; reflexivity]. intros p. split; [intros [] | intros (x & y & E & _); destruct p; discriminate E]. }
  destruct l2 as [| b l2].
  { exists []. split; [constructor |]. split; [| reflexivity]. intros p. split; [intros [] | intros (x & y & _ & E & _); destruct p; discriminate E]. }
  cbn [ComparePrint.sections_said]. destruct (line_agree nc d1 d2 a b H1 H2) as (s & -> & Hs). destruct (IH l2 (S i)) as (ps & So & Hp & ->). cbn [quiet bindS say].
  assert (So' : StronglySorted lt (map S ps)).
  { clear -So. induction So as [| p ps So IHs F]; cbn [map]; constructor; [exact IHs |]. rewrite Forall_forall in *. intros x I. apply in_map_iff in I as (y & <- & I). specialize (F y I). lia. }
  assert (Tx : flat_map (fun p => differs (i + p) (nth p (a :: l1) []) (nth p (b :: l2) [])) (map S ps) = flat_map (fun p => differs (S i + p) (nth p l1 []) (nth p l2 [])) ps).
  { clear. induction ps as [| p ps IH]; [reflexivity |]. cbn [map flat_map]. rewrite IH. cbn [nth]. replace (i + S p)%nat with (S i + p)%nat by lia. reflexivity. }
  assert (Hm : forall p, In p (map S ps) <-> exists q, p = S q /\ differ_at nc d1 d2 l1 l2 q).
  { intros p. rewrite in_map_iff. split; [intros (q & <- & I); exists q; split; [reflexivity | apply Hp, I] | intros (q & -> & D); exists q; split; [reflexivity | apply Hp, D]]. }
  destruct s.
  - exists (map S ps). split; [exact So' |]. split.
    + intros p. rewrite Hm. split; [intros (q & -> & D); exact D |]. intros D. destruct p as [| q]; [| exists q; split; [reflexivity | exact D]].
      destruct D as (x & y & E1 & E2 & D). injection E1 as <-. injection E2 as <-. exfalso. apply D, Hs. reflexivity.
    + rewrite Tx. cbn [app andb]. rewrite app_nil_r. destruct ps; reflexivity.
  - exists (0%nat :: map S ps). split; [| split].
    + constructor; [exact So' |]. rewrite Forall_forall. intros x I. apply in_map_iff in I as (y & <- & _). lia.
    + intros p. cbn [In]. rewrite Hm. split.
      * intros [<- | (q & -> & D)]; [| exact D]. exists a, b. split; [reflexivity |]. split; [reflexivity |]. intros L. apply Hs in L. discriminate L.
      * intros D. destruct p as [| q]; [left; reflexivity | right; exists q; split; [reflexivity | exact D]].
    + cbn [flat_map]. rewrite Tx, Nat.add_0_r. cbn [nth app andb]. rewrite app_nil_r. reflexivity.
Qed.
(** The texts about a section: exactly the lines that both sections have and that
    differ, in order, each with its number and with both texts. *)
Theorem C143_lines : forall number_clever d1 d2 l1 l2, d1 <> Some [] -> d2 <> Some [] -> exists ps,
  StronglySorted lt ps /\ (forall p, In p ps <-> differ_at number_clever d1 d2 l1 l2 p) /\
  fst (sections_said 1 l1 l2 number_clever false d1 d2) = flat_map (shown l1 l2) ps.
Proof. intros nc d1 d2 l1 l2 H1 H2. destruct (sections_text nc d1 d2 H1 H2 l1 l2 1) as (ps & A & B & ->). exists ps. auto. Qed.
Lemma agree_dec nc d1 d2 l1 l2 ps : (forall p, In p ps <-> differ_at nc d1 d2 l1 l2 p) -> d1 <> Some [] -> d2 <> Some [] ->
  (ps = [] <-> forall i a b, nth_error l1 i = Some a -> nth_error l2 i = Some b -> lines_agree nc d1 d2 (strip a) (strip b)).
Proof.
  intros Hp H1 H2. split.
  - intros -> i a b E1 E2. destruct (line_agree nc d1 d2 a b H1 H2) as ([|] & _ & Hs); [apply Hs; reflexivity |]. exfalso. apply (Hp i). exists a, b. split; [exact E1 |]. split; [exact E2 |].
    intros L. apply Hs in L. discriminate L.
  - intros A. destruct ps as [| p ps]; [reflexivity |]. exfalso. destruct (proj1 (Hp p) (or_introl eq_refl)) as (a & b & E1 & E2 & D). exact (D (A p a b E1 E2)).
Qed.
(** No other text looks like the ones that are sought. *)
Definition heads (w : section_words) : Prop := w = header_words \/ w = body_words.
Lemma in_section w f1 f2 l1 l2 nc d1 d2 : heads w -> d1 <> Some [] -> d2 <> Some [] ->
  let r := section_said w f1 f2 l1 l2 nc false d1 d2 in
  (exists s, snd r = Done s) /\
  (forall w', heads w' -> (In (w_same w') (fst r) <-> w' = w /\ forall i a b, nth_error l1 i = Some a -> nth_error l2 i = Some b -> lines_agree nc d1 d2 (strip a) (strip b))) /\
  (forall w' n1 n2, heads w' -> (In (lengths_text w' f1 f2 n1 n2) (fst r) <-> w' = w /\ length l1 <> length l2 /\ lengths_text w f1 f2 n1 n2 = lengths_text w f1 f2 (length l1) (length l2))).
Proof.
  intros Hw H1 H2 r. unfold r, ComparePrint.section_said. destruct (sections_text nc d1 d2 H1 H2 l1 l2 1) as (ps & _ & Hp & ->). pose proof (agree_dec _ _ _ _ _ _ Hp H1 H2) as Ag.
  cbn [say bindS fst snd].
  assert (Nd : forall t, (forall x y : str, t <> lit "Line " ++ x /\ t <> lit ">>> " ++ x /\ t <> lit "<<< " ++ x) -> ~ In t (flat_map (fun p => differs (1 + p) (nth p l1 []) (nth p l2 [])) ps)).
  { intros t Nt I. apply in_flat_map in I as (p & _ & [I | [I | [I | []]]]); [destruct (Nt (dec_of_nat (1 + p) ++ lit ":") []) as (N1 & _) | destruct (Nt (strip (nth p l1 [])) []) as (_ & N1 & _) | destruct (Nt (strip (nth p l2 [])) []) as (_ & _ & N1)]; apply N1; symmetry; exact I. }
  assert (Ns : forall w', heads w' -> forall x y : str, w_same w' <> lit "Line " ++ x /\ w_same w' <> lit ">>> " ++ x /\ w_same w' <> lit "<<< " ++ x).
  { intros w' [-> | ->] x _; repeat split; intros Q; discriminate Q. }
  assert (Nl : forall w', heads w' -> forall n1 n2, forall x y : str, lengths_text w' f1 f2 n1 n2 <> lit "Line " ++ x /\ lengths_text w' f1 f2 n1 n2 <> lit ">>> " ++ x /\ lengths_text w' f1 f2 n1 n2 <> lit "<<< " ++ x).
  { intros w' [-> | ->] n1 n2 x _; repeat split; intros Q; discriminate Q. }
  split; [destruct ps; cbn; eauto |]. split.
  - intros w' Hw'. rewrite <- Ag. cbn [bindS]. split.
    + intros I. apply in_app_or in I as [I | I].
      * exfalso. destruct I as [I | [I | [I | []]]]; [| destruct (Ns w' Hw' (f1 ++ w_name w) []) as (_ & N1 & _); apply N1; symmetry; exact I | destruct (Ns w' Hw' (f2 ++ w_name w) []) as (_ & _ & N1); apply N1; symmetry; exact I].
        destruct Hw as [-> | ->], Hw' as [-> | ->]; discriminate I.
      * apply in_app_or in I as [I | I]; [exfalso; exact (Nd _ (Ns w' Hw') I) |]. apply in_app_or in I as [I | I].
        -- destruct ps as [| p ps]; [| destruct I]. destruct I as [I | []]. split; [| reflexivity]. destruct Hw as [-> | ->], Hw' as [-> | ->]; try reflexivity; discriminate I.
        -- exfalso. rewrite app_nil_r in I. destruct (length l1 =? length l2)%nat; [destruct I |]. destruct I as [I | []]. destruct Hw as [-> | ->], Hw' as [-> | ->]; discriminate I.
    + intros (-> & ->). cbn [app]. do 3 right. left. reflexivity.
  - intros w' n1 n2 Hw'. cbn [bindS]. split.
    + intros I. apply in_app_or in I as [I | I].
      * exfalso. destruct I as [I | [I | [I | []]]]; [| destruct (Nl w' Hw' n1 n2 (f1 ++ w_name w) []) as (_ & N1 & _); apply N1; symmetry; exact I | destruct (Nl w' Hw' n1 n2 (f2 ++ w_name w) []) as (_ & _ & N1); apply N1; symmetry; exact I].
        destruct Hw as [-> | ->], Hw' as [-> | ->]; discriminate I.
      * apply in_app_or in I as [I | I]; [exfalso; exact (Nd _ (Nl w' Hw' n1 n2) I) |]. apply in_app_or in I as [I | I].
        -- exfalso. destruct ps as [| p ps]; [| destruct I]. destruct I as [I | []]. destruct Hw as [-> | ->], Hw' as [-> | ->]; discriminate I.
        -- rewrite app_nil_r in I. destruct (Nat.eqb_spec (length l1) (length l2)) as [| Ne]; [destruct I |]. destruct I as [I | []].
           assert (w' = w) as -> by (destruct Hw as [-> | ->], Hw' as [-> | ->]; try reflexivity; discriminate I). auto.
    + intros (-> & Ne & ->). apply Nat.eqb_neq in Ne. rewrite Ne. apply in_or_app. right. apply in_or_app. right. apply in_or_app. right. left. reflexivity.
Qed.

Definition common_agree (nc : bool) (d1 d2 : option str) (l1 l2 : list str) : Prop :=
  forall i a b, nth_error l1 i = Some a -> nth_error l2 i = Some b -> lines_agree nc d1 d2 (strip a) (strip b).
Lemma head_len_nat d c n : header_length d c n -> head_len (readlines c) d = Ok (Z.of_nat n).
Proof.
  intros (first & rest & item & items & z & E & S & I & ->). unfold head_len. rewrite E. cbn [nth_res nth_error of_opt bindR]. rewrite S. cbn [bindR nth_res nth_error of_opt]. rewrite I. reflexivity.
Qed.
Lemma files_text disk f1 f2 c1 c2 (header body : bool) nc d1 d2 n1 n2 : disk f1 = Some c1 -> disk f2 = Some c2 -> excluded (last_part f1) = false ->
  header_length d1 c1 n1 -> header_length d2 c2 n2 -> d1 <> Some [] -> d2 <> Some [] ->
  fst (files_said disk f1 f2 header body nc false d1 d2) =
    (if header then fst (section_said header_words f1 f2 (firstn n1 (readlines c1)) (firstn n2 (readlines c2)) nc false d1 d2) else []) ++
    (if body then fst (section_said body_words f1 f2 (skipn n1 (readlines c1)) (skipn n2 (readlines c2)) nc false d1 d2) else []).
Proof.
  intros E1 E2 Ex L1 L2 H1 H2. unfold ComparePrint.files_said. rewrite Ex, E1, E2. cbv zeta. rewrite (head_len_nat _ _ _ L1), (head_len_nat _ _ _ L2). cbn [quiet bindS].
  rewrite !slice_to_nat, !slice_from_nat.
  destruct (in_section header_words f1 f2 (firstn n1 (readlines c1)) (firstn n2 (readlines c2)) nc d1 d2 (or_introl eq_refl) H1 H2) as ((s1 & R1) & _).
  destruct (in_section body_words f1 f2 (skipn n1 (readlines c1)) (skipn n2 (readlines c2)) nc d1 d2 (or_intror eq_refl) H1 H2) as ((s2 & R2) & _).
  destruct (section_said header_words f1 f2 _ _ nc false d1 d2) as [t1 r1], (section_said body_words f1 f2 _ _ nc false d1 d2) as [t2 r2]. cbn [snd] in R1, R2. subst r1 r2.
  destruct header, body; cbn [bindS fst app]; rewrite ?app_nil_r; reflexivity.
Qed.
(** The words that a section is identical are there exactly when the section is
    compared and its common lines agree; different lengths are told in a further
    text. *)
Theorem C143_identical_partial : forall disk f1 f2 c1 c2 header body number_clever d1 d2 n1 n2, disk f1 = Some c1 -> disk f2 = Some c2 -> excluded (last_part f1) = false ->
  header_length d1 c1 n1 -> header_length d2 c2 n2 -> d1 <> Some [] -> d2 <> Some [] ->
  let out := fst (files_said disk f1 f2 header body number_clever false d1 d2) in
  let h1 := firstn n1 (readlines c1) in let h2 := firstn n2 (readlines c2) in let b1 := skipn n1 (readlines c1) in let b2 := skipn n2 (readlines c2) in
  (In (lit "HEADERS ARE IDENTICAL.") out <-> header = true /\ common_agree number_clever d1 d2 h1 h2) /\
  (In (lit "BODIES ARE IDENTICAL.") out <-> body = true /\ common_agree number_clever d1 d2 b1 b2) /\
  (In (lengths_text header_words f1 f2 (length h1) (length h2)) out <-> header = true /\ length h1 <> length h2) /\
  (In (lengths_text body_words f1 f2 (length b1) (length b2)) out <-> body = true /\ length b1 <> length b2).
Proof.
  intros disk f1 f2 c1 c2 header body nc d1 d2 n1 n2 E1 E2 Ex L1 L2 H1 H2 out h1 h2 b1 b2. unfold out. rewrite (files_text disk f1 f2 c1 c2 header body nc d1 d2 n1 n2) by assumption.
  destruct (in_section header_words f1 f2 h1 h2 nc d1 d2 (or_introl eq_refl) H1 H2) as (_ & A1 & B1).
  destruct (in_section body_words f1 f2 b1 b2 nc d1 d2 (or_intror eq_refl) H1 H2) as (_ & A2 & B2).
  fold h1 h2 b1 b2. change (lit "HEADERS ARE IDENTICAL.") with (w_same header_words). change (lit "BODIES ARE IDENTICAL.") with (w_same body_words).
  assert (Hb : header_words <> body_words) by (intros Q; apply (f_equal w_title) in Q; vm_compute in Q; discriminate Q).
  assert (K1 : heads header_words) by (left; reflexivity). assert (K2 : heads body_words) by (right; reflexivity).
  rewrite !in_app_iff. split; [| split; [| split]]; (split; [intros [I | I] | intros (-> & Q)]).
  - destruct header; [| destruct I]. apply (A1 _ K1) in I as (_ & Q). split; [reflexivity | exact Q].
  - exfalso. destruct body; [| destruct I]. apply (A2 _ K1) in I as (Q & _). exact (Hb Q).
  - left. apply (A1 _ K1). split; [reflexivity | exact Q].
  - exfalso. destruct header; [| destruct I]. apply (A1 _ K2) in I as (Q & _). exact (Hb (eq_sym Q)).
  - destruct body; [| destruct I]. apply (A2 _ K2) in I as (_ & Q). split; [reflexivity | exact Q].
  - right. apply (A2 _ K2). split; [reflexivity | exact Q].
  - destruct header; [| destruct I]. apply (B1 _ _ _ K1) in I as (_ & Q & _). split; [reflexivity | exact Q].
  - exfalso. destruct body; [| destruct I]. apply (B2 _ _ _ K1) in I as (Q & _). exact (Hb Q).
  - left. apply (B1 _ _ _ K1). split; [reflexivity |]. split; [exact Q | reflexivity].
  - exfalso. destruct header; [| destruct I]. apply (B1 _ _ _ K2) in I as (Q & _). exact (Hb (eq_sym Q)).
  - destruct body; [| destruct I]. apply (B2 _ _ _ K2) in I as (_ & Q & _). split; [reflexivity | exact Q].
  - right. apply (B2 _ _ _ K2). split; [reflexivity |]. split; [exact Q | reflexivity].
Qed.
Lemma agree_all nc d1 d2 l1 : forall l2, length l1 = length l2 -> common_agree nc d1 d2 l1 l2 -> Forall2 (fun a b => lines_agree nc d1 d2 (strip a) (strip b)) l1 l2.
Proof.
  induction l1 as [| a l1 IH]; intros [| b l2] L A; try discriminate L; constructor; [exact (A 0%nat a b eq_refl eq_refl) |]. apply IH; [injection L as L; exact L |].
  intros i x y. exact (A (S i) x y).
Qed.
(** Both sections are called identical and no lengths are reported: the files agree
    line by line. *)
Theorem C143_sound_partial : forall disk f1 f2 c1 c2 number_clever d1 d2 n1 n2, disk f1 = Some c1 -> disk f2 = Some c2 -> excluded (last_part f1) = false ->
  header_length d1 c1 n1 -> header_length d2 c2 n2 -> d1 <> Some [] -> d2 <> Some [] ->
  let out := fst (files_said disk f1 f2 true true number_clever false d1 d2) in
  In (lit "HEADERS ARE IDENTICAL.") out -> In (lit "BODIES ARE IDENTICAL.") out ->
  (forall a b, ~ In (lengths_text header_words f1 f2 a b) out) -> (forall a b, ~ In (lengths_text body_words f1 f2 a b) out) ->
  Forall2 (fun a b => lines_agree number_clever d1 d2 (strip a) (strip b)) (readlines c1) (readlines c2).
Proof.
  intros disk f1 f2 c1 c2 nc d1 d2 n1 n2 E1 E2 Ex L1 L2 H1 H2 out I1 I2 N1 N2.
  destruct (C143_identical_partial disk f1 f2 c1 c2 true true nc d1 d2 n1 n2 E1 E2 Ex L1 L2 H1 H2) as (A & B & C & D).
  apply A in I1 as (_ & I1). apply B in I2 as (_ & I2). rewrite <- (firstn_skipn n1 (readlines c1)), <- (firstn_skipn n2 (readlines c2)). apply Forall2_app; apply agree_all; try assumption.
  - destruct (Nat.eq_dec (length (firstn n1 (readlines c1))) (length (firstn n2 (readlines c2)))) as [Q | Q]; [exact Q |]. exfalso. eapply N1. apply C. split; [reflexivity | exact Q].
  - destruct (Nat.eq_dec (length (skipn n1 (readlines c1))) (length (skipn n2 (readlines c2)))) as [Q | Q]; [exact Q |]. exfalso. eapply N2. apply D. split; [reflexivity | exact Q].
Qed.
(** A file and a copy of it. *)
Lemma quiet_same nc ap d1 d2 : forall l1 l2 i, compareSections (num := num) l1 l2 nc ap d1 d2 = Ok true -> sections_said i l1 l2 nc ap d1 d2 = ([], Done true).
Proof.
  induction l1 as [| a l1 IH]; intros [| b l2] i Q; try reflexivity. cbn [ComparePrint.sections_said compareSections] in *. destruct (line_same nc ap d1 d2 a b) as [s |]; [| discriminate Q].
  cbn [bindR] in Q. destruct (compareSections l1 l2 nc ap d1 d2) as [r |] eqn:R; [| discriminate Q]. cbn [bindR] in Q. destruct s, r; try discriminate Q. cbn [quiet bindS say]. rewrite (IH l2 (S i) R). reflexivity.
Qed.
Theorem C143_same : forall disk f1 f2 c number_clever approx d n, parse_law num -> disk f1 = Some c -> disk f2 = Some c -> excluded (last_part f1) = false ->
  header_length d c n -> real_delim d ->
  files_said disk f1 f2 true true number_clever approx d d =
  ([lit "Comparing headers:"; lit ">>> " ++ f1 ++ lit " header:"; lit "<<< " ++ f2 ++ lit " header:"; lit "HEADERS ARE IDENTICAL.";
    lit "Comparing bodies:"; lit ">>> " ++ f1 ++ lit " body:"; lit "<<< " ++ f2 ++ lit " body:"; lit "BODIES ARE IDENTICAL."], Done (Some true)).
Proof.
  intros disk f1 f2 c nc ap d n PL E1 E2 Ex L RD. unfold ComparePrint.files_said. rewrite Ex, E1, E2. cbv zeta. rewrite (head_len_nat _ _ _ L). cbn [quiet bindS].
  unfold ComparePrint.section_said. rewrite !Nat.eqb_refl. rewrite !quiet_same by (apply sections_refl; assumption). reflexivity.
Qed.
End C143.
Print Assumptions C143_result.
Print Assumptions C143_lines.
Print Assumptions C143_identical_partial.
Print Assumptions C143_sound_partial.
Print Assumptions C143_same.

(** False of the code: a file is called identical with a longer one, and the
    function returns True. *)
Definition two (c1 c2 : str) (name : str) : option str := if str_eqb name (lit "a.na") then Some c1 else if str_eqb name (lit "b.na") then Some c2 else None.
Theorem C143_refuted : exists c1 c2 : str, let r := files_said (num := Q) (two c1 c2) (lit "a.na") (lit "b.na") true true true false None None in
  length (readlines c1) <> length (readlines c2) /\ In (lit "HEADERS ARE IDENTICAL.") (fst r) /\ In (lit "BODIES ARE IDENTICAL.") (fst r) /\ snd r = Done (Some true).
Proof.
  exists (nlc ["2 1001"; "A header"; "1 2"]%pylit), (nlc ["2 1001"; "A header"; "1 2"; "3 4"]%pylit). vm_compute. split; [discriminate |]. split; [| split]; auto 10.
Qed.
Print Assumptions C143_refuted.
Example C143_example : let c1 := nlc ["2 1001"; "A header"; "1 2"; "3 4"]%pylit in let c2 := nlc ["3 1001"; "B header"; "x"; "1 2.0"; "3 5"; "6 7"]%pylit in
  files_said (num := Q) (two c1 c2) (lit "a.na") (lit "b.na") true true true false None None =
  ([lit "Comparing headers:"; lit ">>> a.na header:"; lit "<<< b.na header:";
    lit "Line 1:"; lit ">>> 2 1001"; lit "<<< 3 1001"; lit "Line 2:"; lit ">>> A header"; lit "<<< B header";
    lit "Header lengths differ:" ++ nl ++ lit ">>> a.na: 2" ++ nl ++ lit "<<< b.na: 3";
    lit "Comparing bodies:"; lit ">>> a.na body:"; lit "<<< b.na body:"; lit "Line 2:"; lit ">>> 3 4"; lit "<<< 3 5";
    lit "Body lengths differ:" ++ nl ++ lit ">>> a.na: 2" ++ nl ++ lit "<<< b.na: 3"], Done (Some false)) /\
  excluded (last_part (lit "a.na")) = false /\ header_length None c1 2 /\ header_length None c2 3.
Proof.
  split; [vm_compute; reflexivity |]. split; [reflexivity |]. split.
  - exists (lit "2 1001" ++ [c_nl]), (map (fun s => lit s ++ [c_nl]) ["A header"; "1 2"; "3 4"]%pylit), (lit "2"), [lit "1001"], 2%Z. repeat split; vm_compute; reflexivity.
  - exists (lit "3 1001" ++ [c_nl]), (map (fun s => lit s ++ [c_nl]) ["B header"; "x"; "1 2.0"; "3 5"; "6 7"]%pylit), (lit "3"), [lit "1001"], 3%Z. repeat split; vm_compute; reflexivity.
Qed.
(** With approximate comparison a text that differs from a number stops the
    comparison; what was printed before stays. *)
Example C143_stopped : let c1 := nlc ["1 1001"; "1"; "2 x"]%pylit in let c2 := nlc ["1 1001"; "-1"; "2 y"]%pylit in
  files_said (num := Q) (two c1 c2) (lit "a.na") (lit "b.na") false true true true None None =
  ([lit "Comparing bodies:"; lit ">>> a.na body:"; lit "<<< b.na body:"; lit "Line 1:"; lit ">>> 1"; lit "<<< -1"], Raise ETypeError) /\
  files_said (num := Q) (two c1 c2) (lit "a.na") (lit "c.na") false true true true None None = ([lit "CANNOT compare files as item does not exist:c.na"], Exit).
Proof. vm_compute. split; reflexivity. Qed.
