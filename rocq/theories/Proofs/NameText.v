(** Reading files that differ in the lines of the names of the variables. *)
From Coq Require Import List NArith ZArith Bool Lia.
From Verif Require Import Py.Str Py.Res Py.Num Model.Dict Model.TextParser Model.CommonUtils Model.NARead Spec.NameTextSpec Proofs.ReadFrame Proofs.ReadSim Proofs.CommentText.
Import ListNotations.

Section Titles.
Context {num : Type} `{NumOps num}.
Local Notation R := (R num).
Open Scope R_scope.

Ltac simtac :=
  lazymatch goal with
  | |- sim _ (bindRd _ _) => apply sim_bind; [simtac | intros ?; simtac]
  | |- sim _ (retR _) => apply sim_ret
  | |- sim _ (liftR _) => apply sim_lift
  | |- sim _ readline => apply sim_readline
  | |- sim _ (NARead.set _ _) => apply sim_set; cbn; intuition discriminate
  | |- sim _ (get _) => apply sim_get; cbn; intuition discriminate
  | |- sim _ (items_unknown _ _) => apply sim_unknown
  | |- sim _ (item_line _) => apply sim_item
  | |- sim _ (items_line _ _) => apply sim_items
  | |- sim _ (readLines _) => apply sim_readLines
  | |- sim _ (names _) => apply sim_names
  | |- sim _ (read_axes _) => apply sim_axes
  | |- sim _ (if ?b then _ else _) => destruct b; simtac
  end.

Ltac lc := lazymatch goal with
  | |- local 0 (bindRd _ _) => apply lc_bind0; [lc|intros ?; lc]
  | |- local 0 (retR _) => apply lc_ret
  | |- local 0 (liftR _) => apply lc_lift
  | |- local 0 (NARead.set _ _) => apply lc_set
  | |- local 0 (get_int _) => apply lc_int
  | |- local 0 (get_list _) => apply lc_list
  | |- local 0 (item_line _) => apply (lc_zero 1), lc_item1
  | |- local 0 (items_line _ _) => apply (lc_zero 1), lc_items1
  | |- local 0 (items_unknown _ _) => apply lc_unknown
  | |- local 0 (names _) => apply lc_names
  | |- local 0 (readLines _) => apply lc_lines
  | |- local 0 (read_axes _) => apply lc_axes
  | |- local 0 (if ?b then _ else _) => destruct b; lc
  end.

(** The variables section up to the names. *)
Definition before_names : R Z :=
  (v <- item_line TInt;; NARead.set kNV v);;;
  nv <- get_int kNV;;
  (l <- items_unknown nv TFloat;; NARead.set kVSCAL (PList l));;;
  (l <- items_unknown nv TFloat;; NARead.set kVMISS (PList l));;;
  retR nv.
Lemma lc_before : local 0 before_names.
Proof. unfold before_names. lc. Qed.
Lemma before_count st n st' : before_names st = Ok (n, st') -> attr (r_na st') kNV = PInt n.
Proof.
  unfold before_names, bindRd. destruct (item_line TInt st) as [[v [l1 d1]]|]; [|discriminate]. unfold NARead.set at 1. cbn [r_lines r_na].
  rewrite int_run. destruct (as_int (attr (upd d1 kNV v) kNV)) as [z|] eqn:Ez; [|discriminate]. unfold items_unknown at 1. cbn [r_lines r_na].
  destruct (readItemsFromUnknownLines _ _ _ _) as [[x rest]|]; [|discriminate]. unfold NARead.set at 1. cbn [r_lines r_na]. unfold items_unknown. cbn [r_lines r_na].
  destruct (readItemsFromUnknownLines _ _ _ _) as [[y rest2]|]; [|discriminate]. unfold NARead.set, retR. cbn [r_lines r_na]. intros E. injection E as <- <-. cbn [r_na].
  unfold attr in *. rewrite !upd_other by discriminate. destruct (upd d1 kNV v kNV) as [[]|]; try discriminate Ez. now injection Ez as ->.
Qed.
Lemma section_names (tail : R unit) st : bindRd (readVariablesHeaderSection (num:=num)) (fun _ => tail) st =
  bindRd before_names (fun nv => l <- names nv;; NARead.set kVNAME (PList l);;; tail) st.
Proof.
  unfold readVariablesHeaderSection, before_names, bindRd, retR.
  destruct (item_line TInt st) as [[v s1]|]; [|reflexivity]. destruct (NARead.set kNV v s1) as [[u s2]|]; [|reflexivity].
  destruct (get_int kNV s2) as [[nv s3]|]; [|reflexivity]. destruct (items_unknown nv TFloat s3) as [[x s4]|]; [|reflexivity].
  destruct (NARead.set kVSCAL (PList x) s4) as [[u2 s5]|]; [|reflexivity]. destruct (items_unknown nv TFloat s5) as [[y s6]|]; [|reflexivity].
  destruct (NARead.set kVMISS (PList y) s6) as [[u3 s7]|]; [|reflexivity]. destruct (names nv s7) as [[z s8]|]; reflexivity.
Qed.

(** [NV] lines are the names, behind at least [k] other lines; what is read behind
    them does not depend on the names. *)
Definition keyed : list key := [kVNAME; kNV].
Definition names_in (k : nat) (m : R unit) : Prop := forall ls d u st', m (mkR ls d) = Ok (u, st') ->
  exists pre coms rest d0 n tail, ls = pre ++ coms ++ rest /\ (k <= length pre)%nat /\ rest <> [] /\ attr d0 kNV = PInt n /\ length coms = Z.to_nat n /\ sim keyed tail /\
    forall coms' q, length coms' = length coms -> exists vs, Forall2 (fun v l => readItemFromLine (right_strip_braces (strip l)) TStr = Ok v) vs coms' /\
      m (mkR (pre ++ coms' ++ q) d) = tail (mkR q (upd d0 kVNAME (PList vs))).
Lemma ni_bind k {A} (m : R A) (f : A -> R unit) : local k m -> (forall a, names_in 0 (f a)) -> names_in k (bindRd m f).
Proof.
  intros Hm Hf ls d b st' E. unfold bindRd in *. destruct (m (mkR ls d)) as [[a [l1 d1]]|] eqn:E1; [|discriminate].
  destruct (Hf a _ _ _ _ E) as (p2 & coms & rest & d0 & n & tail & F1 & _ & Hn & F2 & F3 & Ft & F4). cbn [r_lines r_na] in *.
  destruct (Hm _ _ _ _ E1) as (p1 & M1 & M2 & M3). { cbn [r_lines]. rewrite F1. intros Q. apply app_eq_nil in Q as [_ Q]. apply app_eq_nil in Q as [_ Q]. now apply Hn. }
  cbn [r_lines r_na] in *. exists (p1 ++ p2), coms, rest, d0, n, tail. split; [rewrite M1, F1; apply app_assoc|]. split; [rewrite app_length; lia|]. split; [exact Hn|].
  split; [exact F2|]. split; [exact F3|]. split; [exact Ft|]. intros coms' q Hc. destruct (F4 coms' q Hc) as (vs & V1 & V2). exists vs. split; [exact V1|].
  rewrite <- app_assoc, M3. exact V2.
Qed.
Lemma names_run coms q d : exists vs, Forall2 (fun v l => readItemFromLine (num:=num) (right_strip_braces (strip l)) TStr = Ok v) vs coms /\
  names (Z.of_nat (length coms)) (mkR (coms ++ q) d) = Ok (vs, mkR q d).
Proof.
  unfold names, readLines, bindRd. rewrite Nat2Z.id, lines_all. unfold readItemsFromLines, liftR.
  assert (G : exists vs, Forall2 (fun v l => readItemFromLine (num:=num) (right_strip_braces (strip l)) TStr = Ok v) vs coms /\
    mapR (fun l => readItemFromLine (num:=num) (right_strip_braces l) TStr) (map strip coms) = Ok vs).
  { clear. induction coms as [|l coms (vs & F & E)]; [exists []; split; [constructor|reflexivity]|]. eexists (_ :: vs). split; [constructor; [reflexivity|exact F]|].
    cbn [map mapR]. rewrite E. reflexivity. }
  destruct G as (vs & F & ->). exists vs. auto.
Qed.
Lemma ni_section (tail : R unit) : sim keyed tail -> (forall (d : na num) u st', tail (mkR [] d) <> Ok (u, st')) ->
  names_in 0 (bindRd (readVariablesHeaderSection (num:=num)) (fun _ => tail)).
Proof.
  intros Ht He ls d u st' E. rewrite section_names in E. unfold bindRd at 1 in E.
  destruct (before_names (mkR ls d)) as [[n [l1 d1]]|] eqn:E1; [|discriminate]. unfold bindRd in E.
  destruct (names n (mkR l1 d1)) as [[vs0 s2]|] eqn:E2; [|discriminate]. unfold NARead.set at 1 in E.
  assert (Hn : r_lines s2 <> []). { intros Q. rewrite Q in E. exact (He _ _ _ E). }
  assert (T : exists coms, l1 = coms ++ r_lines s2 /\ length coms = Z.to_nat n).
  { unfold names, bindRd, readLines in E2. destruct (read_n_lines (Z.to_nat n) (mkR l1 d1)) as [[x s]|] eqn:El; [|discriminate]. unfold liftR in E2.
    destruct (readItemsFromLines x) as [y|]; [|discriminate]. injection E2 as _ <-. exact (lines_taken _ _ _ _ _ El Hn). }
  destruct T as (coms & -> & Hc).
  destruct (lc_before _ _ _ _ E1) as (pre & M1 & _ & M3). { cbn [r_lines]. intros Q. apply app_eq_nil in Q as [_ Q]. now apply Hn. }
  cbn [r_lines r_na] in M1, M3. exists pre, coms, (r_lines s2), d1, n, tail.
  split; [exact M1|]. split; [lia|]. split; [exact Hn|]. split; [exact (before_count _ _ _ E1)|]. split; [exact Hc|]. split; [exact Ht|].
  intros coms' q Hl. destruct (names_run coms' q d1) as (vs & V1 & V2). exists vs. split; [exact V1|]. rewrite section_names. unfold bindRd at 1. rewrite M3.
  unfold bindRd. assert (V3 : names n (mkR (coms' ++ q) d1) = Ok (vs, mkR q d1)).
  { rewrite <- V2. unfold names, readLines. rewrite Nat2Z.id, Hl, Hc. reflexivity. }
  rewrite V3. reflexivity.
Qed.
Lemma ni_header c ignore : names_in (Z.to_nat ignore + 1) (readHeader (num:=num) c ignore).
Proof.
  destruct c; cbn [readHeader]; unfold readHeader_1001, readHeader_1010, readHeader_1020, readHeader_2010, readHeader_2110, readHeader_2160, readHeader_2310;
    (apply ni_bind; [apply lc_common|]; intros _);
    repeat (first [apply ni_section | apply ni_bind; [lc|intros ?]]);
    unfold readAuxVariablesHeaderSection, readCharAuxVariablesHeaderSection, readComments, get_int, get_list; try simtac;
    intros d u st' Q; vm_compute in Q; discriminate Q.
Qed.

(** ** The data *)
Section Data.
Variables h h' : na num.
Hypothesis Hag : same_but_titles h h'.
Lemma nt_attr k : ~ In k titles -> attr h k = attr h' k.
Proof. intros A. unfold attr. now rewrite (Hag k A). Qed.
Lemma nt_int k : ~ In k titles -> h_int h k = h_int h' k.
Proof. intros A. unfold h_int. now rewrite nt_attr. Qed.
Lemma nt_list k : ~ In k titles -> h_list h k = h_list h' k.
Proof. intros A. unfold h_list. now rewrite nt_attr. Qed.
Lemma nt_mut k : ~ In k titles -> h_mut h k = h_mut h' k.
Proof. intros A. unfold h_mut. now rewrite nt_attr. Qed.
Ltac att := repeat (first [rewrite nt_int by (cbn; intuition discriminate) | rewrite nt_list by (cbn; intuition discriminate) | rewrite nt_mut by (cbn; intuition discriminate)]).
Lemma nt_setup c : setupArrays h c = setupArrays h' c.
Proof. destruct c; cbn [setupArrays]; unfold setup_1001, setup_1010, setup_2010, setup_2110; att; reflexivity. Qed.
Lemma nt_1 c ls m s : readData1 h c ls m s = readData1 h' c ls m s.
Proof.
  destruct c; cbn [readData1]; unfold readData1_1001, readData1_1010, readData1_2010, readData1_2110, readData1_2160, readData1_2310;
    att; reflexivity.
Qed.
Lemma nt_2 c ls m s : readData2 h c ls m s = readData2 h' c ls m s.
Proof.
  destruct c; cbn [readData2]; unfold readData2_1001, readData2_1010, readData2_1020, readData2_2010, readData2_2110, readData2_2310;
    att; reflexivity.
Qed.
Lemma nt_loop c fuel ls m s : data_loop h c fuel ls m s = data_loop h' c fuel ls m s.
Proof.
  revert ls m s. induction fuel as [|fuel IH]; intros [|l ls] m s; cbn [data_loop]; try reflexivity.
  rewrite nt_1. destruct (readData1 h' c (l :: ls) m s) as [r1|]; [|reflexivity]. cbn [bindR].
  rewrite nt_2. destruct (readData2 h' c (snd r1) m (fst r1)) as [r2|]; [|reflexivity]. cbn [bindR]. apply IH.
Qed.
Lemma nt_store c s : same_but_titles (store h c s) (store h' c s) /\ forall k, In k titles -> store h c s k = h k /\ store h' c s k = h' k.
Proof.
  split.
  - assert (U : forall d d' k (v : pyv num), same_but_titles d d' -> same_but_titles (upd d k v) (upd d' k v)).
    { intros d d' k v A k' Hk'. unfold upd. destruct (key_beq k k'); [reflexivity | now apply A]. }
    destruct c; cbn [store]; repeat apply U; exact Hag.
  - intros k Hk. cbn in Hk. destruct c; cbn [store]; repeat destruct Hk as [<-|Hk]; try contradiction; split; reflexivity.
Qed.
End Data.
End Titles.
