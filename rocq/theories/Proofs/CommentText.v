(** Reading files that differ in the lines of the normal comments. *)
From Coq Require Import List NArith ZArith Bool Lia.
From Verif Require Import Py.Str Py.Res Py.Num Model.Dict Model.TextParser Model.CommonUtils Model.NARead Spec.CommentTextSpec Proofs.ReadFrame.
Import ListNotations.

Section Remarks.
Context {num : Type} `{NumOps num}.
Local Notation R := (R num).
Open Scope R_scope.

(** What is read before the end of the file depends on at least [k] lines and
    not on the lines behind them. *)
Definition local (k : nat) {A} (m : R A) : Prop := forall ls d a st', m (mkR ls d) = Ok (a, st') -> r_lines st' <> [] ->
  exists pre, ls = pre ++ r_lines st' /\ (k <= length pre)%nat /\ forall q, m (mkR (pre ++ q) d) = Ok (a, mkR q (r_na st')).
(** The last lines read are the normal comments. *)
Definition ends (k : nat) (m : R unit) : Prop := forall ls d u st', m (mkR ls d) = Ok (u, st') -> r_lines st' <> [] ->
  exists pre coms d0 n, ls = pre ++ coms ++ r_lines st' /\ (k <= length pre)%nat /\ attr d0 kNNCOML = PInt n /\ length coms = Z.to_nat n /\
    forall coms' q, length coms' = length coms ->
      m (mkR (pre ++ coms' ++ q) d) = Ok (tt, mkR q (upd d0 kNCOM (PList (map (fun l => PStr (strip l)) coms')))).

Lemma lc_zero k {A} (m : R A) : local k m -> local 0 m.
Proof. intros L ls d a st' E Hn. destruct (L ls d a st' E Hn) as (pre & E1 & _ & E2). exists pre. repeat split; [exact E1|lia|exact E2]. Qed.
Lemma lc_still {A} (m : R A) : (forall ls d a st', m (mkR ls d) = Ok (a, st') -> r_lines st' = ls /\ forall q, m (mkR q d) = Ok (a, mkR q (r_na st'))) -> local 0 m.
Proof. intros S ls d a st' E _. destruct (S ls d a st' E) as (E1 & E2). exists []. repeat split; [now rewrite E1|auto|exact E2]. Qed.
Lemma lc_ret {A} (a : A) : local 0 (retR a).
Proof. apply lc_still. intros ls d x st' [= <- <-]. auto. Qed.
Lemma lc_lift {A} (r : Res A) : local 0 (liftR r).
Proof. apply lc_still. intros ls d x st' E. unfold liftR in *. destruct r; [|discriminate]. injection E as <- <-. auto. Qed.
Lemma lc_set k v : local 0 (NARead.set (num:=num) k v).
Proof. apply lc_still. intros ls d a st' [= <- <-]. auto. Qed.
Lemma lc_get k : local 0 (get (num:=num) k).
Proof. apply lc_still. intros ls d a st' [= <- <-]. auto. Qed.
Lemma lc_readline : local 1 readline.
Proof. intros [|l ls] d a st' E Hn; cbn in E; injection E as <- <-; [now destruct Hn|]. exists [l]. repeat split; auto. Qed.
Lemma lc_bind k j {A B} (m : R A) (f : A -> R B) : local k m -> (forall a, local j (f a)) -> local (k + j) (bindRd m f).
Proof.
  intros Hm Hf ls d b st' E Hn. unfold bindRd in *. destruct (m (mkR ls d)) as [[a [l1 d1]]|] eqn:E1; [|discriminate].
  destruct (Hf a _ _ _ _ E Hn) as (p2 & F1 & F2 & F3). cbn [r_lines r_na] in *.
  destruct (Hm _ _ _ _ E1) as (p1 & M1 & M2 & M3). { cbn [r_lines]. rewrite F1. intros Q. apply Hn. now destruct (app_eq_nil _ _ Q). }
  cbn [r_lines r_na] in *. exists (p1 ++ p2). split; [rewrite M1, F1; apply app_assoc|]. split; [rewrite app_length; lia|].
  intros q. rewrite <- app_assoc, M3. apply F3.
Qed.
Lemma lc_bind0 {A B} (m : R A) (f : A -> R B) : local 0 m -> (forall a, local 0 (f a)) -> local 0 (bindRd m f).
Proof. intros. now apply (lc_bind 0 0). Qed.
Lemma lc_bindk k {A B} (m : R A) (f : A -> R B) : local k m -> (forall a, local 0 (f a)) -> local k (bindRd m f).
Proof. intros Hm Hf. rewrite (plus_n_O k). now apply lc_bind. Qed.
Lemma unknown_local eof n it ex ls r e rest : unknown_loop eof n it ex ls = Ok (r, e, rest) ->
  exists pre, ls = pre ++ rest /\ forall q, unknown_loop eof n it ex (pre ++ q) = Ok (r, e, q).
Proof.
  revert it ex. induction ls as [|l ls IH]; intros it ex; cbn [unknown_loop]; destruct (Z.of_nat (length it) <? n)%Z eqn:El.
  - discriminate.
  - intros [= <- <- <-]. exists []. split; [reflexivity|]. intros [|x q]; cbn [app unknown_loop]; now rewrite El.
  - intros E. destruct (IH _ _ E) as (pre & -> & E2). exists (l :: pre). split; [reflexivity|]. intros q. cbn [app unknown_loop]. rewrite El. apply E2.
  - intros [= <- <- <-]. exists []. split; [reflexivity|]. intros [|x q]; cbn [app unknown_loop]; now rewrite El.
Qed.
Lemma lc_unknown n t : local 0 (items_unknown (num:=num) n t).
Proof.
  intros ls d a st' E _. unfold items_unknown in *. cbn [r_lines r_na] in *. unfold readItemsFromUnknownLines in *.
  destruct (unknown_loop EHang n [] None ls) as [[[r e] rest]|] eqn:El; cbn [bindR] in E; [|discriminate].
  destruct e as [[|x e]|]; try discriminate. destruct (mapR (conv t) r) as [vs|] eqn:Ev; [|discriminate]. cbn [bindR] in E. injection E as <- <-. cbn [r_lines r_na].
  destruct (unknown_local _ _ _ _ _ _ _ _ El) as (pre & -> & U). exists pre. repeat split; [lia|]. intros q. rewrite U. cbn [bindR]. rewrite Ev. reflexivity.
Qed.
Lemma lc_int k : local 0 (get_int (num:=num) k).
Proof. apply lc_bind0; [apply lc_get|]. intros. apply lc_lift. Qed.
Lemma lc_list k : local 0 (get_list (num:=num) k).
Proof. apply lc_bind0; [apply lc_get|]. intros. apply lc_lift. Qed.
Lemma lc_lines n : local 0 (readLines n).
Proof.
  unfold readLines. induction (Z.to_nat n) as [|k IH]; cbn [read_n_lines]; [apply lc_ret|].
  apply lc_bind0; [apply (lc_zero 1), lc_readline|]. intros. apply lc_bind0; [exact IH|]. intros. apply lc_ret.
Qed.
Lemma lc_item1 t : local 1 (item_line (num:=num) t).
Proof. apply (lc_bind 1 0); [apply lc_readline|]. intros. apply lc_lift. Qed.
Lemma lc_items1 n t : local 1 (items_line (num:=num) n t).
Proof. apply (lc_bind 1 0); [apply lc_readline|]. intros. apply lc_lift. Qed.
Lemma lc_names n : local 0 (names (num:=num) n).
Proof. apply lc_bind0; [apply lc_lines|]. intros. apply lc_lift. Qed.
Lemma lc_ignored n : local n (read_ignored (num:=num) n).
Proof.
  induction n as [|k IH]; cbn [read_ignored]; [apply lc_ret|]. apply (lc_bind 1 k); [apply lc_item1|]. intros.
  apply lc_bindk; [exact IH|]. intros. apply lc_ret.
Qed.
Lemma lc_axes l : local 0 (read_axes (num:=num) l).
Proof.
  induction l as [|v l IH]; cbn [read_axes]; [apply lc_ret|]. apply lc_bind0; [apply lc_lift|]. intros. apply lc_bind0; [apply lc_unknown|]. intros.
  apply lc_bind0; [exact IH|]. intros. apply lc_ret.
Qed.
Ltac lc := lazymatch goal with
  | |- local 0 (bindRd _ _) => apply lc_bind0; [lc|intros ?; lc]
  | |- local 0 (retR _) => apply lc_ret
  | |- local 0 (liftR _) => apply lc_lift
  | |- local 0 (NARead.set _ _) => apply lc_set
  | |- local 0 (get_int _) => apply lc_int
  | |- local 0 (get_list _) => apply lc_list
  | |- local 0 (item_line _) => apply (lc_zero 1), lc_item1
  | |- local 0 (items_line _ _) => apply (lc_zero 1), lc_items1
  | |- local 0 (items_unknown _ _) => apply lc_unknown
  | |- local 0 (names _) => apply lc_names
  | |- local 0 (readLines _) => apply lc_lines
  | |- local 0 (read_axes _) => apply lc_axes
  | |- local 0 (if ?b then _ else _) => destruct b; lc
  end.
Lemma lc_top : local 1 (readTopLine (num:=num)).
Proof. unfold readTopLine. apply (lc_bind 1 0); [apply lc_items1|]. intros ?. lc. Qed.
Lemma lc_common ignore : local (Z.to_nat ignore + 1) (readCommonHeader (num:=num) ignore).
Proof.
  unfold readCommonHeader. apply lc_bind.
  - apply lc_bindk; [apply lc_ignored|]. intros ?. lc.
  - intros _. apply (lc_bind 1 0); [apply lc_top|]. intros _. lc.
Qed.

Lemma en_bind k {A} (m : R A) (f : A -> R unit) : local k m -> (forall a, ends 0 (f a)) -> ends k (bindRd m f).
Proof.
  intros Hm Hf ls d b st' E Hn. unfold bindRd in *. destruct (m (mkR ls d)) as [[a [l1 d1]]|] eqn:E1; [|discriminate].
  destruct (Hf a _ _ _ _ E Hn) as (p2 & coms & d0 & n & F1 & _ & F2 & F3 & F4). cbn [r_lines r_na] in *.
  destruct (Hm _ _ _ _ E1) as (p1 & M1 & M2 & M3). { cbn [r_lines]. rewrite F1. intros Q. apply app_eq_nil in Q as [_ Q]. apply app_eq_nil in Q as [_ Q]. now apply Hn. }
  cbn [r_lines r_na] in *. exists (p1 ++ p2), coms, d0, n. split; [rewrite M1, F1; apply app_assoc|]. split; [rewrite app_length; lia|].
  split; [exact F2|]. split; [exact F3|]. intros coms' q Hc. rewrite <- app_assoc, M3. now apply F4.
Qed.
Lemma lines_all ls d q : read_n_lines (num:=num) (length ls) (mkR (ls ++ q) d) = Ok (map strip ls, mkR q d).
Proof.
  induction ls as [|l ls IH]; [reflexivity|]. cbn [length read_n_lines app map]. unfold bindRd at 1. cbn [readline r_lines r_na].
  unfold bindRd. rewrite IH. reflexivity.
Qed.
Lemma lines_taken n ls d x st' : read_n_lines (num:=num) n (mkR ls d) = Ok (x, st') -> r_lines st' <> [] ->
  exists coms, ls = coms ++ r_lines st' /\ length coms = n.
Proof.
  revert ls x st'. induction n as [|n IH]; intros ls x st' E Hn; cbn [read_n_lines] in E.
  - injection E as <- <-. now exists [].
  - unfold bindRd in E. destruct ls as [|l ls]; cbn [readline r_lines r_na] in E.
    + destruct (read_n_lines n (mkR [] d)) as [[y s]|] eqn:E1; [|discriminate]. injection E as <- <-. destruct (IH _ _ _ E1 Hn) as (coms & Q & _).
      symmetry in Q. apply app_eq_nil in Q as [_ Q]. now destruct Hn.
    + destruct (read_n_lines n (mkR ls d)) as [[y s]|] eqn:E1; [|discriminate]. injection E as <- <-. destruct (IH _ _ _ E1 Hn) as (coms & -> & <-). now exists (l :: coms).
Qed.
Lemma int_run k ls (d : na num) : get_int k (mkR ls d) = match as_int (attr d k) with Ok n => Ok (n, mkR ls d) | Err e => Err e end.
Proof. reflexivity. Qed.
Lemma en_last : ends 0 (n <- get_int kNNCOML;; l <- readLines n;; NARead.set (num:=num) kNCOM (PList (map PStr l))).
Proof.
  intros ls d u st' E Hn. unfold bindRd in E. rewrite int_run in E.
  destruct (as_int (attr d kNNCOML)) as [n|] eqn:En; [|discriminate]. unfold readLines in E.
  destruct (read_n_lines (Z.to_nat n) (mkR ls d)) as [[x s]|] eqn:El; [|discriminate]. injection E as <- <-. cbn [r_lines r_na] in Hn |- *.
  destruct (lines_taken _ _ _ _ _ El Hn) as (coms & -> & Hc). exists [], coms, d, n.
  split; [reflexivity|]. split; [lia|]. split; [destruct (attr d kNNCOML); try discriminate En; now injection En as ->|]. split; [exact Hc|].
  intros coms' q Hl. cbn [app]. unfold bindRd. rewrite int_run, En. unfold readLines. rewrite <- Hc, <- Hl, lines_all.
  unfold NARead.set. cbn [r_lines r_na]. rewrite map_map. reflexivity.
Qed.
Lemma en_comments : ends 0 (readComments (num:=num)).
Proof.
  unfold readComments. apply en_bind; [lc|]. intros _. apply en_bind; [lc|]. intros _. apply en_bind; [lc|]. intros _. exact en_last.
Qed.
Lemma en_header c ignore : ends (Z.to_nat ignore + 1) (readHeader (num:=num) c ignore).
Proof.
  destruct c; cbn [readHeader]; unfold readHeader_1001, readHeader_1010, readHeader_1020, readHeader_2010, readHeader_2110, readHeader_2160, readHeader_2310;
    (apply en_bind; [apply lc_common|]; intros _);
    unfold readVariablesHeaderSection, readAuxVariablesHeaderSection, readCharAuxVariablesHeaderSection;
    repeat (first [exact en_comments | apply en_bind; [lc|intros ?]]).
Qed.

(** ** The data *)
Section Data.
Variables h h' : na num.
Hypothesis Hag : same_but_remarks h h'.
Lemma rk_attr k : ~ In k remarks -> attr h k = attr h' k.
Proof. intros A. unfold attr. now rewrite (Hag k A). Qed.
Lemma rk_int k : ~ In k remarks -> h_int h k = h_int h' k.
Proof. intros A. unfold h_int. now rewrite rk_attr. Qed.
Lemma rk_list k : ~ In k remarks -> h_list h k = h_list h' k.
Proof. intros A. unfold h_list. now rewrite rk_attr. Qed.
Lemma rk_mut k : ~ In k remarks -> h_mut h k = h_mut h' k.
Proof. intros A. unfold h_mut. now rewrite rk_attr. Qed.
Ltac att := repeat (first [rewrite rk_int by (cbn; intuition discriminate) | rewrite rk_list by (cbn; intuition discriminate) | rewrite rk_mut by (cbn; intuition discriminate)]).
Lemma rk_setup c : setupArrays h c = setupArrays h' c.
Proof. destruct c; cbn [setupArrays]; unfold setup_1001, setup_1010, setup_2010, setup_2110; att; reflexivity. Qed.
Lemma rk_1 c ls m s : readData1 h c ls m s = readData1 h' c ls m s.
Proof.
  destruct c; cbn [readData1]; unfold readData1_1001, readData1_1010, readData1_2010, readData1_2110, readData1_2160, readData1_2310;
    att; reflexivity.
Qed.
Lemma rk_2 c ls m s : readData2 h c ls m s = readData2 h' c ls m s.
Proof.
  destruct c; cbn [readData2]; unfold readData2_1001, readData2_1010, readData2_1020, readData2_2010, readData2_2110, readData2_2310;
    att; reflexivity.
Qed.
Lemma rk_loop c fuel ls m s : data_loop h c fuel ls m s = data_loop h' c fuel ls m s.
Proof.
  revert ls m s. induction fuel as [|fuel IH]; intros [|l ls] m s; cbn [data_loop]; try reflexivity.
  rewrite rk_1. destruct (readData1 h' c (l :: ls) m s) as [r1|]; [|reflexivity]. cbn [bindR].
  rewrite rk_2. destruct (readData2 h' c (snd r1) m (fst r1)) as [r2|]; [|reflexivity]. cbn [bindR]. apply IH.
Qed.
Lemma rk_store c s : same_but_remarks (store h c s) (store h' c s) /\ forall k, In k remarks -> store h c s k = h k /\ store h' c s k = h' k.
Proof.
  split.
  - assert (U : forall d d' k (v : pyv num), same_but_remarks d d' -> same_but_remarks (upd d k v) (upd d' k v)).
    { intros d d' k v A k' Hk'. unfold upd. destruct (key_beq k k'); [reflexivity | now apply A]. }
    destruct c; cbn [store]; repeat apply U; exact Hag.
  - intros k Hk. cbn in Hk. destruct c; cbn [store]; repeat destruct Hk as [<-|Hk]; try contradiction; split; reflexivity.
Qed.
End Data.
End Remarks.
