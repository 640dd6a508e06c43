(** Texts that were read from a file are single lines without white space at
    the ends; which items a file sets. *)
From Coq Require Import List NArith ZArith Bool Lia.
From Verif Require Import Py.Str Py.Res Py.Num Model.Dict Model.TextParser Model.CommonUtils Model.NARead
  Spec.TextSpec Spec.Records Proofs.StrLemmas Proofs.TextLemmas Proofs.RTText Proofs.RT6 Proofs.ReadFrame.
Import ListNotations.

Definition text_line (l : str) : Prop := exists b, (l = b ++ [c_nl] \/ l = b) /\ one_line b.
Lemma readlines_text content : Forall text_line (readlines content).
Proof.
  apply Forall_forall. intros l I. pose proof I as J. apply lines_no_inner in I as (b & E & N). exists b. split; [exact E|].
  split; [now apply mem_chr_false|]. intros C.
  assert (K : In c_cr (univ_newlines content)).
  { rewrite <- lines_concat. apply in_concat. exists l. split; [exact J|]. destruct E as [-> | ->]; [apply in_or_app; now left|exact C]. }
  pose proof (univ_newlines_no_cr content) as Q. apply mem_chr_false in Q. contradiction.
Qed.
Definition clean (s : str) : Prop := one_line s /\ trimmed s.
Lemma clean_nil : clean [].
Proof. split; [split; intros []|]. split; intros c t E; [discriminate|destruct t; discriminate]. Qed.
Lemma strip_line l : text_line l -> clean (strip l).
Proof.
  intros (b & E & O). split; [|apply strip_trimmed].
  destruct E as [-> | ->]; [|now apply one_line_strip]. rewrite strip_app_sp by reflexivity. now apply one_line_strip.
Qed.
Lemma braces_line l : text_line l -> text_line (right_strip_braces l).
Proof.
  intros T. destruct (right_strip_cases l) as [(g & b & A)|E]; [|now rewrite E].
  destruct A as (L & _ & N & _). set (p := right_strip_braces l) in *. exists p. split; [now right|]. split; [exact N|].
  intros C. destruct T as (b0 & E & _ & O). assert (I : In c_cr l) by (rewrite L; apply in_or_app; now left).
  destruct E as [-> | ->]; [|contradiction]. apply in_app_or in I as [I | [I | []]]; [contradiction|discriminate I].
Qed.
Lemma clean_line s : clean s -> text_line s.
Proof. intros [O _]. exists s. auto. Qed.
Lemma quotes_clean s : clean s -> clean (no_quotes_sub s).
Proof. intros C. destruct s as [|c t]; [exact C|]. unfold no_quotes_sub. destruct (_ && _); [apply clean_nil|exact C]. Qed.

Section ReadText.
Context {num : Type} `{NumOps num}.
Local Notation pyv := (pyv num).
Local Notation R := (R num).

(** All texts in the value are clean; two levels suffice for a header. *)
Definition clean1 (v : pyv) : Prop := forall s, v = PStr s -> clean s.
Definition clean_v (v : pyv) : Prop := clean1 v /\ forall l, v = PList l -> Forall clean1 l.
Definition clean_na (d : na num) : Prop := forall k v, d k = Some v -> clean_v v.

Lemma clean1_str s : clean s -> clean1 (PStr s).
Proof. intros C t E. injection E as <-. exact C. Qed.
Lemma clean_list l : Forall clean1 l -> clean_v (PList l).
Proof. intros F. split; [intros s E; discriminate|]. intros l' E. injection E as <-. exact F. Qed.
Lemma clean_of1 v : clean1 v -> (forall l, v <> PList l) -> clean_v v.
Proof. intros C N. split; [exact C|]. intros l E. now elim (N l). Qed.
Lemma clean_typed t v : t <> TStr -> of_type t v -> clean1 v.
Proof. intros N T s E. subst v. destruct t; [congruence| |]; destruct T; discriminate. Qed.
Lemma clean_int z : clean_v (PInt z).
Proof. apply clean_of1; [intros s|intros l]; discriminate. Qed.

Definition keeps {A} (m : R A) (Q : A -> Prop) : Prop := forall st a st', Forall text_line (r_lines st) -> clean_na (r_na st) ->
  m st = Ok (a, st') -> Forall text_line (r_lines st') /\ clean_na (r_na st') /\ Q a.
Lemma k_bind {A B} (m : R A) (f : A -> R B) Q Q' : keeps m Q -> (forall a, Q a -> keeps (f a) Q') -> keeps (bindRd m f) Q'.
Proof.
  intros Km Kf st a st' L C E. apply bindRd_inv in E as (b & s1 & E1 & E2).
  destruct (Km _ _ _ L C E1) as (L1 & C1 & Qb). exact (Kf b Qb _ _ _ L1 C1 E2).
Qed.
Lemma k_weak {A} (m : R A) (Q Q' : A -> Prop) : (forall a, Q a -> Q' a) -> keeps m Q -> keeps m Q'.
Proof. intros W K st a st' L C E. destruct (K _ _ _ L C E) as (? & ? & ?). auto. Qed.
Lemma k_lift {A} (x : Res A) : keeps (liftR x) (fun a => x = Ok a).
Proof. intros st a st' L C E. apply liftR_inv in E as [-> ->]. auto. Qed.
Lemma k_ret {A} (x : A) : keeps (retR x) (fun a => a = x).
Proof. intros st a st' L C E. apply retR_inv in E as [-> ->]. auto. Qed.
Lemma k_readline : keeps readline text_line.
Proof.
  intros st a st' L C E. unfold readline in E. destruct (r_lines st) as [|l ls] eqn:El; injection E as <- <-.
  - rewrite El. split; [exact L|]. split; [exact C|]. apply clean_line, clean_nil.
  - inversion L; subst. auto.
Qed.
Lemma k_set k v : clean_v v -> keeps (NARead.set k v) (fun _ => True).
Proof.
  intros Cv st a st' L C E. unfold NARead.set in E. injection E as <- <-. cbn [r_lines r_na]. split; [exact L|]. split; [|exact I].
  intros k' v' E. unfold upd in E. destruct (key_beq k k'); [|exact (C _ _ E)]. injection E as <-. exact Cv.
Qed.
Lemma k_get_int k : keeps (get_int k) (fun _ => True).
Proof.
  unfold get_int. apply (k_bind _ _ (fun _ => True)); [|intros a _; apply (k_weak _ _ _ (fun _ _ => I) (k_lift _))].
  intros st a st' L C E. injection E as <- <-. auto.
Qed.
Lemma k_get_list k : keeps (get_list k) (fun l => forall v, v = PList l \/ (forall l', v <> PList l') -> True).
Proof.
  unfold get_list. apply (k_bind _ _ (fun _ => True)).
  - intros st a st' L C E. injection E as <- <-. auto.
  - intros a _. apply (k_weak _ (fun l => as_list a = Ok l)); [auto|apply k_lift].
Qed.
Lemma k_item_line t : keeps (item_line t) (fun v => clean_v v /\ of_type t v).
Proof.
  unfold item_line. apply (k_bind _ _ text_line); [apply k_readline|]. intros l T. eapply k_weak; [|apply k_lift]. cbv beta. intros v E.
  unfold readItemFromLine in E. pose proof (conv_type _ _ _ E) as Ty. split; [|exact Ty].
  destruct t; cbn [of_type] in Ty.
  - cbn [conv] in E. injection E as <-. apply clean_of1; [|discriminate]. apply clean1_str, quotes_clean, strip_line, braces_line, T.
  - destruct Ty as [z ->]. apply clean_int.
  - destruct Ty as [x ->]. apply clean_of1; [intros s|intros k]; discriminate.
Qed.
Lemma k_items_line n t : t <> TStr -> keeps (items_line n t) (fun l => Forall clean1 l).
Proof.
  intros N. unfold items_line. apply (k_bind _ _ text_line); [apply k_readline|]. intros l T. eapply k_weak; [|apply k_lift]. cbv beta. intros v E.
  unfold readItemsFromLine in E. cbv zeta in E. destruct (_ && _) in E; [discriminate|]. eapply mapR_all; [|exact E]. intros x y Ex.
  eapply clean_typed; [exact N|eapply conv_type, Ex].
Qed.
Lemma k_read_n_lines n : keeps (read_n_lines n) (Forall clean).
Proof.
  induction n as [|n IH]; cbn [read_n_lines].
  - eapply k_weak; [|apply k_ret]. intros a ->. constructor.
  - apply (k_bind _ _ text_line); [apply k_readline|]. intros l T. apply (k_bind _ _ (Forall clean)); [exact IH|].
    intros ls F. eapply k_weak; [|apply k_ret]. intros a ->. constructor; [now apply strip_line|exact F].
Qed.
Lemma k_names n : keeps (names n) (Forall clean1).
Proof.
  unfold names, readLines. apply (k_bind _ _ (Forall clean)); [apply k_read_n_lines|]. intros ls F.
  eapply k_weak; [|apply k_lift]. cbv beta. unfold readItemsFromLines. revert F.
  induction ls as [|l ls IH]; intros F a E; cbn [mapR] in E; [injection E as <-; constructor|].
  inversion F as [|? ? F1 F2]; subst. unfold readItemFromLine at 1 in E. cbn [conv bindR] in E.
  destruct (mapR _ ls) as [r|] eqn:Er; cbn [bindR] in E; [|discriminate]. injection E as <-. constructor; [|now apply IH].
  apply clean1_str, quotes_clean, strip_line, braces_line, braces_line, clean_line, F1.
Qed.
Lemma unknown_lines eof n ls : forall items ex r, unknown_loop eof n items ex ls = Ok r -> Forall text_line ls -> Forall text_line (snd r).
Proof.
  induction ls as [|l ls IH]; intros items ex r E F; cbn [unknown_loop] in E; destruct (_ <? n)%Z; try discriminate; try (injection E as <-; exact F).
  inversion F; subst. eapply IH; eassumption.
Qed.
Lemma word_clean w : word w -> clean w.
Proof.
  intros [_ F]. rewrite Forall_forall in F. split; split.
  - intros I. specialize (F _ I). discriminate.
  - intros I. specialize (F _ I). discriminate.
  - intros c t ->. apply F. now left.
  - intros c t ->. apply F, in_or_app. right. now left.
Qed.
Lemma k_items_unknown n t : keeps (items_unknown n t) (Forall clean1).
Proof.
  intros st a st' L C E. destruct (q_items_unknown n t _ _ _ E) as (_ & T & _ & _ & W). unfold items_unknown in E.
  destruct (readItemsFromUnknownLines EHang (r_lines st) n t) as [[items rest]|] eqn:Er; [|discriminate]. injection E as <- <-. cbn [r_lines r_na].
  unfold readItemsFromUnknownLines in Er. destruct (unknown_loop EHang n [] None (r_lines st)) as [[[it ex] rs]|] eqn:Eu; cbn [bindR] in Er; [|discriminate].
  destruct ex as [[|e es]|]; try discriminate. destruct (mapR (conv t) it) as [vs|] eqn:Em; cbn [bindR] in Er; [|discriminate].
  split; [exact (unknown_lines _ _ _ _ _ _ (eq_trans Eu (f_equal Ok (f_equal2 pair eq_refl (f_equal (fun p => snd (match p with Ok q => q | Err _ => ([], []) end)) Er)))) L)|].
  split; [exact C|]. destruct t.
  - eapply Forall_impl; [|exact (W eq_refl)]. intros v (w & -> & Hw). now apply clean1_str, word_clean.
  - eapply Forall_impl; [|exact T]. intros v. now apply clean_typed.
  - eapply Forall_impl; [|exact T]. intros v. now apply clean_typed.
Qed.
Lemma k_read_axes l : keeps (read_axes l) (Forall clean1).
Proof.
  induction l as [|n l IH]; cbn [read_axes].
  - eapply k_weak; [|apply k_ret]. intros a ->. constructor.
  - eapply k_bind; [apply k_lift|]. intros k _. eapply k_bind; [apply k_items_unknown|]. intros x _.
    eapply k_bind; [exact IH|]. intros xs F. eapply k_weak; [|apply k_ret]. intros a ->. constructor; [|exact F]. intros s E. discriminate.
Qed.
Lemma k_read_ignored n : keeps (read_ignored n) (Forall clean1).
Proof.
  induction n as [|n IH]; cbn [read_ignored].
  - eapply k_weak; [|apply k_ret]. intros a ->. constructor.
  - eapply k_bind; [apply (k_item_line TStr)|]. intros v [Cv _]. eapply k_bind; [exact IH|]. intros vs F.
    eapply k_weak; [|apply k_ret]. intros a ->. constructor; [apply Cv|exact F].
Qed.
Lemma clean_firstn n l : Forall clean1 l -> Forall clean1 (firstn n l).
Proof. intros F. rewrite <- (firstn_skipn n l) in F. now apply Forall_app in F. Qed.
Lemma clean_skipn n l : Forall clean1 l -> Forall clean1 (skipn n l).
Proof. intros F. rewrite <- (firstn_skipn n l) in F. now apply Forall_app in F. Qed.
Lemma clean_ints n line l i v : readItemsFromLine (num:=num) line n TInt = Ok l -> nth_res l i = Ok v -> clean_v v.
Proof.
  intros E N. unfold nth_res in N. destruct (nth_error l i) as [w|] eqn:En; [|discriminate]. injection N as <-. apply nth_error_In in En.
  unfold readItemsFromLine in E. cbv zeta in E. destruct (_ && _) in E; [discriminate|].
  assert (F : Forall (of_type TInt) l) by (eapply mapR_all; [|exact E]; intros x y; apply conv_type).
  rewrite Forall_forall in F. destruct (F _ En) as [z ->]. apply clean_int.
Qed.
Ltac kb := repeat first
  [ apply k_get_int | apply (k_item_line _) | apply k_names | apply k_readline | apply k_read_ignored | apply k_read_axes | apply k_lift
  | apply k_items_line; discriminate | apply k_items_unknown ].
Lemma k_item_set k t : keeps (bindRd (item_line t) (fun v => NARead.set k v)) (fun _ => True).
Proof. eapply k_bind; [apply (k_item_line t)|]. intros v [C _]. now apply k_set. Qed.
Lemma k_list_set (m : R (list pyv)) f k : keeps m (Forall clean1) -> (forall l, Forall clean1 l -> Forall clean1 (f l)) ->
  keeps (bindRd m (fun l => NARead.set k (PList (f l)))) (fun _ => True).
Proof. intros K F. eapply k_bind; [exact K|]. intros v C. apply k_set, clean_list, F, C. Qed.
Lemma k_seq {A B} (m : R A) (f : R B) Q : keeps m (fun _ => True) -> keeps f Q -> keeps (bindRd m (fun _ => f)) Q.
Proof. intros K1 K2. eapply k_bind; [exact K1|]. intros _ _. exact K2. Qed.
Lemma k_any {A} (m : R A) Q : keeps m Q -> keeps m (fun _ => True).
Proof. apply k_weak. auto. Qed.
Lemma k_items_int2 n : keeps (items_line n TInt) (fun l => forall i v, nth_res l i = Ok v -> clean_v v).
Proof.
  unfold items_line. eapply k_bind; [apply k_readline|]. intros l _. eapply k_weak; [|apply k_lift]. cbv beta. intros a E i v N.
  eapply clean_ints; eassumption.
Qed.
Lemma k_top : keeps readTopLine (fun _ => True).
Proof.
  unfold readTopLine. eapply k_bind; [apply k_items_int2|]. intros l C.
  eapply k_bind; [apply k_lift|]. intros a Ea. eapply k_bind; [apply k_lift|]. intros b Eb. eapply k_bind; [apply k_lift|]. intros f _.
  apply k_seq; [apply k_set; exact (C _ _ Ea)|]. apply k_seq; [apply k_set; exact (C _ _ Eb)|]. apply k_set, clean_int.
Qed.
Lemma k_common ignore : keeps (readCommonHeader ignore) (fun _ => True).
Proof.
  unfold readCommonHeader.
  apply k_seq; [apply (k_list_set _ (fun l => l)); [apply k_read_ignored|auto]|].
  apply k_seq; [apply k_top|]. do 4 (apply k_seq; [apply k_item_set|]).
  apply k_seq; [|apply k_seq; [|eapply k_bind; [apply k_get_int|intros; apply k_set, clean_int]]].
  - eapply k_bind; [apply k_items_int2|]. intros l C. eapply k_bind; [apply k_lift|]. intros a Ea. eapply k_bind; [apply k_lift|]. intros b Eb.
    apply k_seq; apply k_set; [exact (C _ _ Ea)|exact (C _ _ Eb)].
  - eapply k_bind; [apply k_items_line; discriminate|]. intros l C. apply k_seq; apply k_set, clean_list; [now apply clean_firstn|now apply clean_skipn].
Qed.
Lemma k_vars : keeps readVariablesHeaderSection (fun _ => True).
Proof.
  unfold readVariablesHeaderSection. apply k_seq; [apply k_item_set|]. eapply k_bind; [apply k_get_int|]. intros n _.
  apply k_seq; [apply (k_list_set _ (fun l => l)); [apply k_items_unknown|auto]|].
  apply k_seq; [apply (k_list_set _ (fun l => l)); [apply k_items_unknown|auto]|].
  apply (k_list_set _ (fun l => l)); [apply k_names|auto].
Qed.
Lemma k_aux : keeps readAuxVariablesHeaderSection (fun _ => True).
Proof.
  unfold readAuxVariablesHeaderSection. apply k_seq; [apply k_item_set|]. eapply k_bind; [apply k_get_int|]. intros n _.
  destruct (0 <? n)%Z; [|eapply k_any, k_ret].
  apply k_seq; [apply (k_list_set _ (fun l => l)); [apply k_items_unknown|auto]|].
  apply k_seq; [apply (k_list_set _ (fun l => l)); [apply k_items_unknown|auto]|].
  apply (k_list_set _ (fun l => l)); [apply k_names|auto].
Qed.
Lemma k_caux : keeps readCharAuxVariablesHeaderSection (fun _ => True).
Proof.
  unfold readCharAuxVariablesHeaderSection. apply k_seq; [apply k_item_set|]. apply k_seq; [apply k_item_set|]. eapply k_bind; [apply k_get_int|]. intros n _.
  eapply k_bind; [apply k_get_int|]. intros nc _. destruct (0 <? n)%Z; [|eapply k_any, k_ret].
  apply k_seq; [apply (k_list_set _ (fun l => l)); [apply k_items_unknown|auto]|].
  intros st u st' L C E. apply bindRd_inv in E as (u1 & s1 & E1 & E). apply bindRd_inv in E1 as (l1 & s0 & E0 & E1).
  destruct (k_items_unknown _ _ _ _ _ L C E0) as (L0 & C0 & F1). destruct (k_set kAMISS _ (clean_list _ F1) _ _ _ L0 C0 E1) as (L1 & C1 & _).
  apply set_inv in E1. assert (A1 : r_na s1 kAMISS = Some (PList l1)) by (rewrite E1; reflexivity). clear E1 E0 L C L0 C0 st s0.
  apply bindRd_inv in E as (u2 & s2 & E2 & E).
  assert (K2 : keeps (bindRd (items_unknown nc TInt) (fun l => NARead.set kLENA (PList (repeat PNone (Z.to_nat (n - nc)) ++ l)))) (fun _ => True)).
  { apply (k_list_set _ (fun l => repeat PNone (Z.to_nat (n - nc)) ++ l)); [apply k_items_unknown|].
    intros l F. apply Forall_app. split; [|exact F]. apply Forall_forall. intros v I. apply repeat_spec in I as ->. intros s E'. discriminate. }
  destruct (K2 _ _ _ L1 C1 E2) as (L2 & C2 & _).
  assert (A2 : r_na s2 kAMISS = Some (PList l1)).
  { apply bindRd_inv in E2 as (l2 & s3 & E3 & E2). apply set_inv in E2. rewrite E2. unfold items_unknown in E3.
    destruct (readItemsFromUnknownLines _ _ _ _) as [[it rest]|]; [|discriminate]. injection E3 as _ <-. exact A1. }
  clear E2 L1 C1 A1 s1 K2.
  apply bindRd_inv in E as (u3 & s3 & E3 & E). apply bindRd_inv in E3 as (a & s4 & E4 & E3). unfold get_list in E4.
  apply bindRd_inv in E4 as (v0 & s5 & E5 & E4). injection E5 as <- <-. apply liftR_inv in E4 as [E4 ->].
  unfold attr in E4. rewrite A2 in E4. injection E4 as <-.
  assert (K3 : keeps (bindRd (items_unknown nc TStr) (fun l => NARead.set kAMISS (PList (l1 ++ l)))) (fun _ => True)).
  { apply (k_list_set _ (fun l => l1 ++ l)); [apply k_items_unknown|]. intros l F. apply Forall_app. auto. }
  destruct (K3 _ _ _ L2 C2 E3) as (L3 & C3 & _).
  exact (k_list_set _ (fun l => l) kANAME (k_names n) (fun _ F => F) _ _ _ L3 C3 E).
Qed.
Lemma k_coms : keeps readComments (fun _ => True).
Proof.
  assert (L : forall k c, keeps (bindRd (get_int c) (fun n => bindRd (readLines n) (fun l => NARead.set k (PList (map PStr l))))) (fun _ => True)).
  { intros k c. eapply k_bind; [apply k_get_int|]. intros n _. eapply k_bind; [apply k_read_n_lines|]. intros l F. apply k_set, clean_list.
    apply Forall_map. eapply Forall_impl; [|exact F]. intros s. apply clean1_str. }
  unfold readComments. apply k_seq; [apply k_item_set|]. apply k_seq; [apply L|]. apply k_seq; [apply k_item_set|]. apply L.
Qed.
Lemma k_header c ignore : keeps (readHeader c ignore) (fun _ => True).
Proof.
  assert (Rv : forall l, Forall clean1 l -> Forall clean1 (rev l)) by (intros l; apply Forall_rev).
  destruct c; cbn [readHeader]; unfold readHeader_1001, readHeader_1010, readHeader_1020, readHeader_2010, readHeader_2110, readHeader_2160, readHeader_2310;
    (apply k_seq; [apply k_common|]); (eapply k_bind; [apply k_get_int|]; intros niv _).
  1-3: apply k_seq; [apply (k_list_set _ (fun l => l)); [apply k_items_line; discriminate|auto]|];
    try (apply k_seq; [apply k_item_set|]);
    (apply k_seq; [apply (k_list_set _ (fun l => l)); [apply k_names|auto]|]);
    (apply k_seq; [apply k_vars|]); try (apply k_seq; [apply k_aux|]); apply k_coms.
  all: try (apply k_seq; [apply (k_list_set _ (@rev _)); [apply k_items_line; discriminate|auto]|]).
  all: try (apply k_seq; [apply (k_list_set _ (fun l => l)); [apply k_items_line; discriminate|auto]|]).
  all: try (apply k_seq; [apply (k_list_set _ (@rev _)); [apply k_items_line; discriminate|auto]|];
            apply k_seq; [apply (k_list_set _ (@rev _)); [apply k_items_line; discriminate|auto]|];
            apply k_seq; [eapply k_bind; [apply k_get_list|]; intros nx _;
              apply (k_list_set _ (fun ls => PList [] :: rev ls)); [apply k_read_axes|
                intros l F; constructor; [intros s E; discriminate|now apply Rv]]|]).
  all: try (apply k_seq; [apply k_item_set|]).
  all: (apply k_seq; [apply (k_list_set _ (@rev _)); [apply k_names|auto]|]);
    (apply k_seq; [apply k_vars|]); (apply k_seq; [apply k_aux || apply k_caux|]); apply k_coms.
Qed.
Lemma clean_new : clean_na na_new.
Proof. intros k v E. unfold na_new, upd, na_empty in E. destruct (key_beq _ _); [|discriminate]. injection E as <-. now apply clean_list. Qed.
Lemma header_clean c content ignore (h : na num) : openNAFile_r content ignore = Ok (c, h) -> clean_na h.
Proof.
  intros E. unfold openNAFile_r in E. destruct (readFFI content ignore) as [f|]; cbn [bindR] in E; [|discriminate].
  destruct (getNAFileClass f) as [c'|]; cbn [bindR] in E; [|discriminate].
  destruct (readHeader c' ignore (mkR (readlines content) na_new)) as [[u st]|] eqn:Er; cbn [bindR snd] in E; [|discriminate].
  injection E as -> <-. destruct (k_header c ignore _ _ _ (readlines_text content : Forall text_line (r_lines (mkR (readlines content) na_new))) clean_new Er) as (_ & C & _). exact C.
Qed.
End ReadText.
