(** Reading files that differ in the lines 2 to 5 of the header. *)
From Coq Require Import List NArith ZArith Bool Lia.
From Verif Require Import Py.Str Py.Res Py.Num Model.Dict Model.TextParser Model.CommonUtils Model.NARead Spec.FreeTextSpec Proofs.ReadFrame Proofs.ReadSim.
Import ListNotations.

Section Free.
Context {num : Type} `{NumOps num}.
Local Notation R := (R num).
Open Scope R_scope.

Ltac simtac :=
  lazymatch goal with
  | |- sim _ (bindRd _ _) => apply sim_bind; [simtac | intros ?; simtac]
  | |- sim _ (retR _) => apply sim_ret
  | |- sim _ (liftR _) => apply sim_lift
  | |- sim _ readline => apply sim_readline
  | |- sim _ (NARead.set _ _) => apply sim_set; cbn; intuition discriminate
  | |- sim _ (get _) => apply sim_get; cbn; intuition discriminate
  | |- sim _ (items_unknown _ _) => apply sim_unknown
  | |- sim _ (item_line _) => apply sim_item
  | |- sim _ (items_line _ _) => apply sim_items
  | |- sim _ (readLines _) => apply sim_readLines
  | |- sim _ (names _) => apply sim_names
  | |- sim _ (read_axes _) => apply sim_axes
  | |- sim _ (if ?b then _ else _) => destruct b; simtac
  end.

(** What follows the four lines. *)
Definition after_texts (ignore : Z) : R unit :=
  (l <- items_line 2 TInt;; a <- liftR (nth_res l 0);; b <- liftR (nth_res l 1);;
   set kIVOL a;;; set kNVOL b);;;
  (l <- items_line 6 TInt;; set kDATE (PList (firstn 3 l));;; set kRDATE (PList (skipn 3 l)));;;
  (n <- get_int kNLHEAD;; set kNLHEAD (PInt (n + ignore))).
Lemma sim_after ignore : sim texts (after_texts ignore).
Proof. unfold after_texts, get_int. simtac. Qed.
Lemma sim_rest c : exists m : R unit, (forall ignore, readHeader c ignore = bindRd (readCommonHeader ignore) (fun _ => m)) /\ sim texts m.
Proof.
  destruct c; (eexists; split; [intros ignore; reflexivity |]);
    unfold readVariablesHeaderSection, readAuxVariablesHeaderSection, readCharAuxVariablesHeaderSection, readComments, get_int, get_list;
    simtac.
Qed.

Definition free (l : str) : str := no_quotes_sub (strip (right_strip_braces l)).
Lemma item_free l q (d : na num) : item_line TStr (mkR (l :: q) d) = Ok (PStr (free l), mkR q d).
Proof. reflexivity. Qed.
Lemma ignored_lines ign : exists r : Res (list (pyv num)), forall q d,
  read_ignored (length ign) (mkR (ign ++ q) d) = match r with Ok vs => Ok (vs, mkR q d) | Err e => Err e end.
Proof.
  induction ign as [|l ign [r IH]]; [exists (Ok []); reflexivity|].
  exists (match r with Ok vs => Ok (PStr (free l) :: vs) | Err e => Err e end). intros q d. cbn [length read_ignored app].
  unfold bindRd at 1. rewrite item_free. unfold bindRd. rewrite IH. destruct r; reflexivity.
Qed.
Lemma top_line top : exists r : Res (pyv num * pyv num * Z), forall q d,
  readTopLine (mkR (top :: q) d) = match r with
    | Ok (a, b, z) => Ok (tt, mkR q (upd (upd (upd d kNLHEAD a) kFFI b) kNIV (PInt z)))
    | Err e => Err e end.
Proof.
  unfold readTopLine, items_line, readline, bindRd, liftR. cbn [r_lines r_na].
  destruct (readItemsFromLine top 2 TInt) as [l|e]; [|exists (Err e); reflexivity].
  destruct (nth_res l 0) as [a|e]; [|exists (Err e); reflexivity]. destruct (nth_res l 1) as [b|e]; [|exists (Err e); reflexivity].
  destruct (as_int b) as [z|e]; [|exists (Err e); reflexivity]. exists (Ok (a, b, Z.quot z 1000)). reflexivity.
Qed.
Definition with_texts (d : na num) (a b c e : str) : na num :=
  upd (upd (upd (upd d kONAME (PStr (free a))) kORG (PStr (free b))) kSNAME (PStr (free c))) kMNAME (PStr (free e)).
Lemma common_texts ignore ign top : length ign = Z.to_nat ignore -> exists r : Res (na num), forall a b c e q,
  readCommonHeader ignore (mkR (ign ++ top :: a :: b :: c :: e :: q) na_new) =
  match r with Ok d => after_texts ignore (mkR q (with_texts d a b c e)) | Err x => Err x end.
Proof.
  intros Hl. destruct (ignored_lines ign) as [ri Hi]. destruct (top_line top) as [rt Ht]. rewrite Hl in Hi.
  destruct ri as [vs|x]; [|exists (Err x); intros; unfold readCommonHeader, bindRd; now rewrite Hi].
  destruct rt as [[[u v] z]|x].
  - exists (Ok (upd (upd (upd (upd na_new kIGN (PList vs)) kNLHEAD u) kFFI v) kNIV (PInt z))). intros a b c e q. unfold readCommonHeader. unfold bindRd at 1 2. rewrite Hi. cbn [NARead.set r_lines r_na].
    unfold bindRd at 1. rewrite Ht. reflexivity.
  - exists (Err x). intros a b c e q. unfold readCommonHeader. unfold bindRd at 1 2. rewrite Hi. cbn [NARead.set r_lines r_na].
    unfold bindRd at 1. now rewrite Ht.
Qed.

(** ** The data *)
Section Data.
Variables h h' : na num.
Hypothesis Hag : same_but_texts h h'.
Lemma at_attr k : ~ In k texts -> attr h k = attr h' k.
Proof. intros A. unfold attr. now rewrite (Hag k A). Qed.
Lemma at_int k : ~ In k texts -> h_int h k = h_int h' k.
Proof. intros A. unfold h_int. now rewrite at_attr. Qed.
Lemma at_list k : ~ In k texts -> h_list h k = h_list h' k.
Proof. intros A. unfold h_list. now rewrite at_attr. Qed.
Lemma at_mut k : ~ In k texts -> h_mut h k = h_mut h' k.
Proof. intros A. unfold h_mut. now rewrite at_attr. Qed.
Ltac att := repeat (first [rewrite at_int by (cbn; intuition discriminate) | rewrite at_list by (cbn; intuition discriminate) | rewrite at_mut by (cbn; intuition discriminate)]).
Lemma at_setup c : setupArrays h c = setupArrays h' c.
Proof. destruct c; cbn [setupArrays]; unfold setup_1001, setup_1010, setup_2010, setup_2110; att; reflexivity. Qed.
Lemma at_1 c ls m s : readData1 h c ls m s = readData1 h' c ls m s.
Proof.
  destruct c; cbn [readData1]; unfold readData1_1001, readData1_1010, readData1_2010, readData1_2110, readData1_2160, readData1_2310;
    att; reflexivity.
Qed.
Lemma at_2 c ls m s : readData2 h c ls m s = readData2 h' c ls m s.
Proof.
  destruct c; cbn [readData2]; unfold readData2_1001, readData2_1010, readData2_1020, readData2_2010, readData2_2110, readData2_2310;
    att; reflexivity.
Qed.
Lemma at_loop c fuel ls m s : data_loop h c fuel ls m s = data_loop h' c fuel ls m s.
Proof.
  revert ls m s. induction fuel as [|fuel IH]; intros [|l ls] m s; cbn [data_loop]; try reflexivity.
  rewrite at_1. destruct (readData1 h' c (l :: ls) m s) as [r1|]; [|reflexivity]. cbn [bindR].
  rewrite at_2. destruct (readData2 h' c (snd r1) m (fst r1)) as [r2|]; [|reflexivity]. cbn [bindR]. apply IH.
Qed.
Lemma at_store c s : same_but_texts (store h c s) (store h' c s) /\ forall k, In k texts -> store h c s k = h k /\ store h' c s k = h' k.
Proof.
  split.
  - assert (U : forall d d' k (v : pyv num), same_but_texts d d' -> same_but_texts (upd d k v) (upd d' k v)).
    { intros d d' k v A k' Hk'. unfold upd. destruct (key_beq k k'); [reflexivity | now apply A]. }
    destruct c; cbn [store]; repeat apply U; exact Hag.
  - intros k Hk. cbn in Hk. destruct c; cbn [store]; repeat destruct Hk as [<-|Hk]; try contradiction; split; reflexivity.
Qed.
End Data.
End Free.
