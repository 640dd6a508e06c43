(** Reading does not depend on the ignored lines. *)
From Coq Require Import List NArith ZArith Bool Lia.
From Verif Require Import Py.Str Py.Res Py.Num Model.Dict Model.TextParser Model.CommonUtils Model.NARead Proofs.ReadFrame.
Import ListNotations.

Section Sim.
Context {num : Type} `{NumOps num}.
Local Notation R := (R num).

(** The dictionaries are equal outside [K]. *)
Definition ag (K : list key) (d d' : na num) : Prop := forall k, ~ In k K -> d k = d' k.
(** [m] does the same in two states that differ in [K], and leaves [K] alone. *)
Definition sim (K : list key) {A} (m : R A) : Prop :=
  forall st st', r_lines st = r_lines st' -> ag K (r_na st) (r_na st') ->
  match m st, m st' with
  | Ok (a, s), Ok (a', s') => a = a' /\ r_lines s = r_lines s' /\ ag K (r_na s) (r_na s')
      /\ (forall k, In k K -> r_na s k = r_na st k) /\ (forall k, In k K -> r_na s' k = r_na st' k)
  | Err e, Err e' => e = e'
  | _, _ => False
  end.

Lemma sim_bind K {A B} (m : R A) (f : A -> R B) : sim K m -> (forall a, sim K (f a)) -> sim K (bindRd m f).
Proof.
  intros Hm Hf st st' El Ed. specialize (Hm st st' El Ed). unfold bindRd.
  destruct (m st) as [[a s]|e], (m st') as [[a' s']|e']; try contradiction; [|exact Hm].
  destruct Hm as (-> & El' & Ed' & Ek & Ek'). specialize (Hf a' s s' El' Ed').
  destruct (f a' s) as [[b u]|], (f a' s') as [[b' u']|]; try contradiction; [|exact Hf].
  destruct Hf as (-> & Eu & Edu & Eku & Eku'). repeat split; auto; intros k Hk.
  - now rewrite Eku, Ek.
  - now rewrite Eku', Ek'.
Qed.
Lemma sim_ret K {A} (a : A) : sim K (retR a).
Proof. intros st st' El Ed. cbn. auto. Qed.
Lemma sim_lift K {A} (r : Res A) : sim K (liftR r).
Proof. intros st st' El Ed. unfold liftR. destruct r; auto. Qed.
Lemma sim_readline K : sim K readline.
Proof.
  intros st st' El Ed. unfold readline. rewrite <- El. destruct (r_lines st) as [|l ls] eqn:E0; cbn; repeat split; auto; congruence.
Qed.
Lemma sim_set K k v : ~ In k K -> sim K (NARead.set k v).
Proof.
  intros Hk st st' El Ed. unfold NARead.set. cbn [r_lines r_na]. repeat split; auto.
  - intros k' Hk'. destruct (key_beq k k') eqn:E0.
    + apply key_beq_true in E0. subst. now rewrite !upd_same.
    + unfold upd. rewrite E0. now apply Ed.
  - intros k' Hk'. apply upd_other. intros ->. contradiction.
  - intros k' Hk'. apply upd_other. intros ->. contradiction.
Qed.
Lemma sim_get K k : ~ In k K -> sim K (get k).
Proof. intros Hk st st' El Ed. unfold get. repeat split; auto. unfold attr. now rewrite (Ed k Hk). Qed.
Lemma sim_unknown K n t : sim K (items_unknown n t).
Proof.
  intros st st' El Ed. unfold items_unknown. rewrite <- El.
  destruct (readItemsFromUnknownLines EHang (r_lines st) n t) as [[items rest]|]; cbn; auto.
Qed.
Ltac simtac :=
  lazymatch goal with
  | |- sim _ (bindRd _ _) => apply sim_bind; [simtac | intros ?; simtac]
  | |- sim _ (retR _) => apply sim_ret
  | |- sim _ (liftR _) => apply sim_lift
  | |- sim _ readline => apply sim_readline
  | |- sim _ (NARead.set _ _) => apply sim_set; cbn; intuition discriminate
  | |- sim _ (get _) => apply sim_get; cbn; intuition discriminate
  | |- sim _ (items_unknown _ _) => apply sim_unknown
  | |- sim _ (if ?b then _ else _) => destruct b; simtac
  | |- _ => solve [auto]
  end.
Lemma sim_item K t : sim K (item_line t). Proof. unfold item_line. simtac. Qed.
Lemma sim_items K n t : sim K (items_line n t). Proof. unfold items_line. simtac. Qed.
Lemma sim_n_lines K n : sim K (read_n_lines n). Proof. induction n; cbn [read_n_lines]; simtac. Qed.
Lemma sim_readLines K n : sim K (readLines n). Proof. apply sim_n_lines. Qed.
Hint Resolve sim_item sim_items sim_n_lines sim_readLines : core.
Lemma sim_names K n : sim K (names n). Proof. unfold names. simtac. Qed.
Hint Resolve sim_names : core.
Lemma sim_axes K l : sim K (read_axes l). Proof. induction l; cbn [read_axes]; simtac. Qed.
Hint Resolve sim_axes : core.

(** The common header without the ignored lines and without the correction of
    NLHEAD. *)
Open Scope R_scope.
Definition mid : R unit :=
  readTopLine;;;
  (v <- item_line TStr;; set kONAME v);;;
  (v <- item_line TStr;; set kORG v);;;
  (v <- item_line TStr;; set kSNAME v);;;
  (v <- item_line TStr;; set kMNAME v);;;
  (l <- items_line 2 TInt;; a <- liftR (nth_res l 0);; b <- liftR (nth_res l 1);;
   set kIVOL a;;; set kNVOL b);;;
  (l <- items_line 6 TInt;; set kDATE (PList (firstn 3 l));;; set kRDATE (PList (skipn 3 l))).
Definition fin (ignore : Z) : R unit := n <- get_int kNLHEAD;; set kNLHEAD (PInt (n + ignore)).
Lemma bind_assoc {A B C} (m : R A) (f : A -> R B) (g : B -> R C) st :
  bindRd (bindRd m f) g st = bindRd m (fun a => bindRd (f a) g) st.
Proof. unfold bindRd. destruct (m st) as [[a s]|]; reflexivity. Qed.
Lemma bind_ext {A B} (m : R A) (f g : A -> R B) st : (forall a s, f a s = g a s) -> bindRd m f st = bindRd m g st.
Proof. intros E. unfold bindRd. destruct (m st) as [[a s]|]; [apply E | reflexivity]. Qed.
Lemma common_parts ignore st : readCommonHeader ignore st =
  ((vs <- read_ignored (Z.to_nat ignore);; set kIGN (PList vs));;; mid;;; fin ignore) st.
Proof.
  unfold readCommonHeader, mid. apply bind_ext. intros _ s. symmetry.
  do 6 (rewrite bind_assoc; apply bind_ext; intros ? ?). reflexivity.
Qed.
Lemma sim_mid : sim [kIGN] mid.
Proof. unfold mid, readTopLine. simtac. Qed.
Lemma sim_tail c : exists m : R unit, (forall ignore, readHeader c ignore = bindRd (readCommonHeader ignore) (fun _ => m))
  /\ sim [kIGN; kNLHEAD] m.
Proof.
  destruct c; (eexists; split; [intros ignore; reflexivity |]);
    unfold readVariablesHeaderSection, readAuxVariablesHeaderSection, readCharAuxVariablesHeaderSection, readComments, get_int, get_list;
    simtac.
Qed.

(** ** The data *)
Section Data.
Variables h h' : na num.
Hypothesis Hag : ag [kIGN; kNLHEAD] h h'.
Lemma ag_attr k : k <> kIGN -> k <> kNLHEAD -> attr h k = attr h' k.
Proof. intros A1 A2. unfold attr. rewrite (Hag k); [reflexivity|]. cbn. intuition congruence. Qed.
Lemma ag_int k : k <> kIGN -> k <> kNLHEAD -> h_int h k = h_int h' k.
Proof. intros A1 A2. unfold h_int. now rewrite ag_attr. Qed.
Lemma ag_list k : k <> kIGN -> k <> kNLHEAD -> h_list h k = h_list h' k.
Proof. intros A1 A2. unfold h_list. now rewrite ag_attr. Qed.
Lemma ag_mut k : k <> kIGN -> k <> kNLHEAD -> h_mut h k = h_mut h' k.
Proof. intros A1 A2. unfold h_mut. now rewrite ag_attr. Qed.
Ltac agt := repeat (first [rewrite ag_int by discriminate | rewrite ag_list by discriminate | rewrite ag_mut by discriminate]).
Lemma ag_setup c : setupArrays h c = setupArrays h' c.
Proof. destruct c; cbn [setupArrays]; unfold setup_1001, setup_1010, setup_2010, setup_2110; agt; reflexivity. Qed.
Lemma ag_1 c ls m s : readData1 h c ls m s = readData1 h' c ls m s.
Proof.
  destruct c; cbn [readData1]; unfold readData1_1001, readData1_1010, readData1_2010, readData1_2110, readData1_2160, readData1_2310;
    agt; reflexivity.
Qed.
Lemma ag_2 c ls m s : readData2 h c ls m s = readData2 h' c ls m s.
Proof.
  destruct c; cbn [readData2]; unfold readData2_1001, readData2_1010, readData2_1020, readData2_2010, readData2_2110, readData2_2310;
    agt; reflexivity.
Qed.
Lemma ag_loop c fuel ls m s : data_loop h c fuel ls m s = data_loop h' c fuel ls m s.
Proof.
  revert ls m s. induction fuel as [|fuel IH]; intros [|l ls] m s; cbn [data_loop]; try reflexivity.
  rewrite ag_1. destruct (readData1 h' c (l :: ls) m s) as [r1|]; [|reflexivity]. cbn [bindR].
  rewrite ag_2. destruct (readData2 h' c (snd r1) m (fst r1)) as [r2|]; [|reflexivity]. cbn [bindR]. apply IH.
Qed.
Lemma ag_store c s : ag [kIGN; kNLHEAD] (store h c s) (store h' c s).
Proof.
  assert (U : forall d d' k (v : pyv num), ag [kIGN; kNLHEAD] d d' -> ag [kIGN; kNLHEAD] (upd d k v) (upd d' k v)).
  { intros d d' k v A k' Hk'. unfold upd. destruct (key_beq k k'); [reflexivity | now apply A]. }
  destruct c; cbn [store]; repeat apply U; exact Hag.
Qed.
(** The data section is the same text. *)
Lemma ag_readData c content content' n n' : attr h kNLHEAD = PInt n -> attr h' kNLHEAD = PInt n' ->
  slice_from (readlines content) n = slice_from (readlines content') n' ->
  match readData h c content, readData h' c content' with
  | Ok d, Ok d' => ag [kIGN; kNLHEAD] d d'
  | Err e, Err e' => e = e'
  | _, _ => False
  end.
Proof.
  intros En En' Es. unfold readData. rewrite ag_setup. destruct (setupArrays h' c) as [s0|]; cbn [bindR]; [|reflexivity].
  assert (h_int h kNLHEAD = Ok n) as -> by (unfold h_int; now rewrite En).
  assert (h_int h' kNLHEAD = Ok n') as -> by (unfold h_int; now rewrite En'). cbn [bindR]. rewrite Es.
  destruct (checkForBlankLines false (slice_from (readlines content') n')) as [ls|]; cbn [bindR]; [|reflexivity].
  rewrite ag_loop. destruct (data_loop h' c (length ls) ls 0 s0) as [s|]; cbn [bindR]; [|reflexivity].
  apply ag_store.
Qed.
End Data.
End Sim.
