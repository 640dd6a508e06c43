(** Reading files that differ in the lines of the special comments. *)
From Coq Require Import List NArith ZArith Bool Lia.
From Verif Require Import Py.Str Py.Res Py.Num Model.Dict Model.TextParser Model.CommonUtils Model.NARead Spec.SpecialTextSpec Proofs.ReadFrame Proofs.ReadSim Proofs.CommentText.
Import ListNotations.

Section Specials.
Context {num : Type} `{NumOps num}.
Local Notation R := (R num).
Open Scope R_scope.

Ltac simtac :=
  lazymatch goal with
  | |- sim _ (bindRd _ _) => apply sim_bind; [simtac | intros ?; simtac]
  | |- sim _ (retR _) => apply sim_ret
  | |- sim _ (liftR _) => apply sim_lift
  | |- sim _ readline => apply sim_readline
  | |- sim _ (NARead.set _ _) => apply sim_set; cbn; intuition discriminate
  | |- sim _ (get _) => apply sim_get; cbn; intuition discriminate
  | |- sim _ (items_unknown _ _) => apply sim_unknown
  | |- sim _ (item_line _) => apply sim_item
  | |- sim _ (items_line _ _) => apply sim_items
  | |- sim _ (readLines _) => apply sim_readLines
  | |- sim _ (names _) => apply sim_names
  | |- sim _ (read_axes _) => apply sim_axes
  | |- sim _ (if ?b then _ else _) => destruct b; simtac
  end.

(** What is read behind the special comments. *)
Definition after_specials : R unit :=
  (v <- item_line TInt;; NARead.set kNNCOML v);;;
  (n <- get_int kNNCOML;; l <- readLines n;; NARead.set kNCOM (PList (map PStr l))).
Lemma sim_after_specials : sim specials after_specials.
Proof.
  unfold after_specials, get_int. simtac.
Qed.
Lemma after_some (d : na num) : ~ exists u st', after_specials (mkR [] d) = Ok (u, st').
Proof. intros (u & st' & E). vm_compute in E. discriminate E. Qed.
Lemma after_keeps st u st' k : after_specials st = Ok (u, st') -> k <> kNNCOML -> k <> kNCOM -> r_na st' k = r_na st k.
Proof.
  intros E H1 H2. unfold after_specials, bindRd in E. destruct st as [ls d].
  destruct (item_line TInt (mkR ls d)) as [[v [l1 d1]]|] eqn:E1; [|discriminate].
  assert (d1 = d) as -> by (unfold item_line, bindRd, readline, liftR in E1; cbn [r_lines r_na] in E1; destruct ls as [|l ls]; cbn [r_lines r_na] in E1;
    match type of E1 with context [readItemFromLine ?a ?b] => destruct (readItemFromLine (num:=num) a b) end; [|discriminate E1| |discriminate E1]; now injection E1).
  unfold NARead.set at 1 in E. cbn [r_lines r_na] in E. rewrite int_run in E. destruct (as_int _) as [n|]; [|discriminate].
  unfold readLines in E.
  assert (F : forall n ls (d : na num) x s, read_n_lines n (mkR ls d) = Ok (x, s) -> r_na s = d).
  { clear. induction n as [|n IH]; intros ls d x s E; cbn [read_n_lines] in E; [now injection E as _ <-|]. unfold bindRd, readline in E. cbn [r_lines r_na] in E.
    destruct ls as [|l ls]; match type of E with context [read_n_lines n ?st] => destruct (read_n_lines n st) as [[y t]|] eqn:E1 end; try discriminate E; injection E as _ <-; exact (IH _ _ _ _ E1). }
  destruct (read_n_lines (Z.to_nat n) _) as [[x s]|] eqn:E2; [|discriminate]. apply F in E2. unfold NARead.set in E. injection E as <- <-. cbn [r_na]. rewrite E2.
  rewrite !upd_other; [reflexivity|congruence|congruence].
Qed.

(** The special comments are lines in the header, behind at least [k] others. *)
Definition holds (k : nat) (m : R unit) : Prop := forall ls d u st', m (mkR ls d) = Ok (u, st') ->
  exists pre coms rest d0 n, ls = pre ++ coms ++ rest /\ (k <= length pre)%nat /\ rest <> [] /\ attr d0 kNSCOML = PInt n /\ length coms = Z.to_nat n /\
    forall coms' q, length coms' = length coms ->
      m (mkR (pre ++ coms' ++ q) d) = after_specials (mkR q (upd d0 kSCOM (PList (map (fun l => PStr (strip l)) coms')))).
Lemma ho_bind k {A} (m : R A) (f : A -> R unit) : local k m -> (forall a, holds 0 (f a)) -> holds k (bindRd m f).
Proof.
  intros Hm Hf ls d b st' E. unfold bindRd in *. destruct (m (mkR ls d)) as [[a [l1 d1]]|] eqn:E1; [|discriminate].
  destruct (Hf a _ _ _ _ E) as (p2 & coms & rest & d0 & n & F1 & _ & Hn & F2 & F3 & F4). cbn [r_lines r_na] in *.
  destruct (Hm _ _ _ _ E1) as (p1 & M1 & M2 & M3). { cbn [r_lines]. rewrite F1. intros Q. apply app_eq_nil in Q as [_ Q]. apply app_eq_nil in Q as [_ Q]. now apply Hn. }
  cbn [r_lines r_na] in *. exists (p1 ++ p2), coms, rest, d0, n. split; [rewrite M1, F1; apply app_assoc|]. split; [rewrite app_length; lia|]. split; [exact Hn|].
  split; [exact F2|]. split; [exact F3|]. intros coms' q Hc. rewrite <- app_assoc, M3. now apply F4.
Qed.
Lemma ho_last : holds 0 (bindRd (n <- get_int kNSCOML;; l <- readLines n;; NARead.set (num:=num) kSCOM (PList (map PStr l))) (fun _ => after_specials)).
Proof.
  intros ls d u st' E. unfold bindRd in E. rewrite int_run in E.
  destruct (as_int (attr d kNSCOML)) as [n|] eqn:En; [|discriminate]. unfold readLines in E.
  destruct (read_n_lines (Z.to_nat n) (mkR ls d)) as [[x s]|] eqn:El; [|discriminate]. unfold NARead.set at 1 in E.
  assert (Hn : r_lines s <> []). { intros Q. rewrite Q in E. apply (after_some (upd (r_na s) kSCOM (PList (map PStr x)))). now exists u, st'. }
  destruct (lines_taken _ _ _ _ _ El Hn) as (coms & -> & Hc). exists [], coms, (r_lines s), d, n.
  split; [reflexivity|]. split; [lia|]. split; [exact Hn|]. split; [destruct (attr d kNSCOML); try discriminate En; now injection En as ->|]. split; [exact Hc|].
  intros coms' q Hl. cbn [app]. unfold bindRd. rewrite int_run, En. unfold readLines. rewrite <- Hc, <- Hl, lines_all.
  unfold NARead.set at 1. cbn [r_lines r_na]. rewrite map_map. reflexivity.
Qed.
Ltac lc := lazymatch goal with
  | |- local 0 (bindRd _ _) => apply lc_bind0; [lc|intros ?; lc]
  | |- local 0 (retR _) => apply lc_ret
  | |- local 0 (liftR _) => apply lc_lift
  | |- local 0 (NARead.set _ _) => apply lc_set
  | |- local 0 (get_int _) => apply lc_int
  | |- local 0 (get_list _) => apply lc_list
  | |- local 0 (item_line _) => apply (lc_zero 1), lc_item1
  | |- local 0 (items_line _ _) => apply (lc_zero 1), lc_items1
  | |- local 0 (items_unknown _ _) => apply lc_unknown
  | |- local 0 (names _) => apply lc_names
  | |- local 0 (readLines _) => apply lc_lines
  | |- local 0 (read_axes _) => apply lc_axes
  | |- local 0 (if ?b then _ else _) => destruct b; lc
  end.
Lemma ho_comments : holds 0 (readComments (num:=num)).
Proof. unfold readComments. apply ho_bind; [lc|]. intros _. exact ho_last. Qed.
Lemma ho_header c ignore : holds (Z.to_nat ignore + 1) (readHeader (num:=num) c ignore).
Proof.
  destruct c; cbn [readHeader]; unfold readHeader_1001, readHeader_1010, readHeader_1020, readHeader_2010, readHeader_2110, readHeader_2160, readHeader_2310;
    (apply ho_bind; [apply lc_common|]; intros _);
    unfold readVariablesHeaderSection, readAuxVariablesHeaderSection, readCharAuxVariablesHeaderSection;
    repeat (first [exact ho_comments | apply ho_bind; [lc|intros ?]]).
Qed.

(** ** The data *)
Section Data.
Variables h h' : na num.
Hypothesis Hag : same_but_specials h h'.
Lemma sp_attr k : ~ In k specials -> attr h k = attr h' k.
Proof. intros A. unfold attr. now rewrite (Hag k A). Qed.
Lemma sp_int k : ~ In k specials -> h_int h k = h_int h' k.
Proof. intros A. unfold h_int. now rewrite sp_attr. Qed.
Lemma sp_list k : ~ In k specials -> h_list h k = h_list h' k.
Proof. intros A. unfold h_list. now rewrite sp_attr. Qed.
Lemma sp_mut k : ~ In k specials -> h_mut h k = h_mut h' k.
Proof. intros A. unfold h_mut. now rewrite sp_attr. Qed.
Ltac att := repeat (first [rewrite sp_int by (cbn; intuition discriminate) | rewrite sp_list by (cbn; intuition discriminate) | rewrite sp_mut by (cbn; intuition discriminate)]).
Lemma sp_setup c : setupArrays h c = setupArrays h' c.
Proof. destruct c; cbn [setupArrays]; unfold setup_1001, setup_1010, setup_2010, setup_2110; att; reflexivity. Qed.
Lemma sp_1 c ls m s : readData1 h c ls m s = readData1 h' c ls m s.
Proof.
  destruct c; cbn [readData1]; unfold readData1_1001, readData1_1010, readData1_2010, readData1_2110, readData1_2160, readData1_2310;
    att; reflexivity.
Qed.
Lemma sp_2 c ls m s : readData2 h c ls m s = readData2 h' c ls m s.
Proof.
  destruct c; cbn [readData2]; unfold readData2_1001, readData2_1010, readData2_1020, readData2_2010, readData2_2110, readData2_2310;
    att; reflexivity.
Qed.
Lemma sp_loop c fuel ls m s : data_loop h c fuel ls m s = data_loop h' c fuel ls m s.
Proof.
  revert ls m s. induction fuel as [|fuel IH]; intros [|l ls] m s; cbn [data_loop]; try reflexivity.
  rewrite sp_1. destruct (readData1 h' c (l :: ls) m s) as [r1|]; [|reflexivity]. cbn [bindR].
  rewrite sp_2. destruct (readData2 h' c (snd r1) m (fst r1)) as [r2|]; [|reflexivity]. cbn [bindR]. apply IH.
Qed.
Lemma sp_store c s : same_but_specials (store h c s) (store h' c s) /\ forall k, In k specials -> store h c s k = h k /\ store h' c s k = h' k.
Proof.
  split.
  - assert (U : forall d d' k (v : pyv num), same_but_specials d d' -> same_but_specials (upd d k v) (upd d' k v)).
    { intros d d' k v A k' Hk'. unfold upd. destruct (key_beq k k'); [reflexivity | now apply A]. }
    destruct c; cbn [store]; repeat apply U; exact Hag.
  - intros k Hk. cbn in Hk. destruct c; cbn [store]; repeat destruct Hk as [<-|Hk]; try contradiction; split; reflexivity.
Qed.
End Data.
End Specials.
