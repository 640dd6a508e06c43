(** Invariants of [readData], for arbitrary header values and data lines. *)
From Coq Require Import List NArith ZArith Bool Lia.
From Verif Require Import Py.Str Py.Res Py.Num Model.Dict Model.TextParser Model.CommonUtils
  Model.NARead Spec.TextSpec Spec.ReadSpec Proofs.StrLemmas Proofs.NumLemmas Proofs.TextLemmas.
Import ListNotations.

Ltac inv_bind E := match type of E with
  | bindR ?x ?f = Ok _ => let K := fresh "K" in destruct x as [?|] eqn:K; cbn [bindR] in E; [|discriminate E]
  end.

Lemma Forall2_len {A B} (R : A -> B -> Prop) l l' : Forall2 R l l' -> length l = length l'.
Proof. induction 1; cbn; congruence. Qed.

Section Loops.
Context {num : Type} `{NumOps num}.
Local Notation pyv := (pyv num).

(** ** Reading items *)
Lemma items_ok ls n t (vs : list pyv) rest : items_from ls n t = Ok (vs, rest) ->
  exists u l, ls = (u ++ [l]) ++ rest
    /\ mapR (conv t) (concat (map toks (u ++ [l]))) = Ok vs
    /\ (Z.of_nat (length (concat (map toks u))) < n <= Z.of_nat (length vs))%Z
    /\ (Z.of_nat (length (toks l)) <= n)%Z.
Proof.
  unfold items_from, readItemsFromUnknownLines. intros E.
  destruct (unknown_loop EIndexError n [] None ls) as [[[rt ex] rest']|] eqn:El; cbn [bindR] in E; [|discriminate].
  destruct (unknown_loop_inv _ _ _ _ _ _ _ _ El) as (used & -> & -> & Hlen & Hex).
  destruct Hex as [[-> ->] | (u & l & -> & -> & Hu)]; [discriminate|].
  destruct (slice_from (toks l) n) as [|x xs] eqn:Ex; [|discriminate].
  cbn [app] in *. destruct (mapR (conv t) _) as [vs'|] eqn:Ev; cbn [bindR] in E; [|discriminate].
  injection E as <- <-. exists u, l. split; [reflexivity|].
  assert (Hl : (Z.of_nat (length (toks l)) <= n)%Z).
  { unfold slice_from in Ex. destruct (Z.ltb_spec n 0); [lia|].
    apply (f_equal (@length _)) in Ex. rewrite skipn_length in Ex. cbn in Ex. lia. }
  assert (Hs : concat (map (fun l => slice_to (toks l) n) u) = concat (map toks u)).
  { assert (G : Forall (fun l => Z.of_nat (length (toks l)) <= n)%Z u).
    { apply Forall_forall. intros y Hy. apply in_split in Hy as (a & b & ->).
      rewrite map_app, concat_app, !app_length in Hu. cbn [map concat] in Hu. rewrite app_length in Hu.
      assert (Hlt : (Z.of_nat (length (slice_to (toks y) n)) < n)%Z) by lia.
      unfold slice_to in Hlt. destruct (Z.ltb_spec n 0); [lia|]. rewrite firstn_length in Hlt. lia. }
    clear -G. induction G as [|y u Hy _ IH]; [reflexivity|]. cbn. now rewrite slice_to_ge, IH. }
  rewrite !map_app, !concat_app in *. cbn [map concat] in *. rewrite app_nil_r in *.
  rewrite Hs, slice_to_ge in Ev by exact Hl. rewrite Hs in Hu. split; [exact Ev|]. split; [|exact Hl].
  apply mapR_length in Ev. rewrite Hs, slice_to_ge in Hlen by exact Hl. split; [exact Hu|]. now rewrite Ev.
Qed.
Lemma items_shorter ls n t (vs : list pyv) rest : items_from ls n t = Ok (vs, rest) -> (length rest < length ls)%nat.
Proof.
  intros E. destruct (items_ok _ _ _ _ _ E) as (u & l & -> & _). rewrite !app_length. cbn. lia.
Qed.
Lemma items_nums ls n (vs : list pyv) rest : items_from ls n TFloat = Ok (vs, rest) -> Forall is_num vs.
Proof.
  intros E. destruct (items_ok _ _ _ _ _ E) as (u & l & _ & Em & _). apply mapR_forall2 in Em.
  clear E. induction Em as [|x y a b Hx _ IH]; constructor; [|exact IH]. cbn in Hx. destruct (num_parse x); [|discriminate].
  injection Hx as <-. eexists. reflexivity.
Qed.
Lemma items_strs ls n (vs : list pyv) rest : items_from ls n TStr = Ok (vs, rest) -> Forall is_word vs.
Proof.
  intros E. destruct (items_ok _ _ _ _ _ E) as (u & l & _ & Em & _). apply mapR_forall2 in Em.
  assert (W : Forall word (concat (map toks (u ++ [l])))).
  { apply Forall_forall. intros w I. apply in_concat in I as (x & Ix & I). apply in_map_iff in Ix as (y & <- & _).
    pose proof (split_ws_words (right_strip_braces y)) as K. rewrite Forall_forall in K. apply word_no_sp. exact (K _ I). }
  clear E. induction Em as [|x y a b Hx _ IH]; constructor; inversion W; subst; [|now apply IH]. cbn in Hx. injection Hx as <-. eexists. split; [reflexivity|assumption].
Qed.
Lemma nth_res_in {A} (l : list A) i x : nth_res l i = Ok x -> In x l.
Proof.
  unfold nth_res. destruct (nth_error l i) eqn:E; [|discriminate]. intros [= <-]. eapply nth_error_In; eauto.
Qed.

(** ** Operations on one element *)
Lemma modify_nth_inv (l l' : list pyv) i f : modify_nth l i f = Ok l' ->
  exists a x y b, l = a ++ x :: b /\ length a = i /\ f x = Ok y /\ l' = a ++ y :: b.
Proof.
  revert i l'. induction l as [|v l IH]; intros [|i] l'; cbn; try discriminate.
  - destruct (f v) as [y|] eqn:E; [|discriminate]. intros [= <-]. exists [], v, y, l. auto.
  - destruct (modify_nth l i f) as [t|] eqn:E; [|discriminate]. intros [= <-].
    destruct (IH _ _ E) as (a & x & y & b & -> & <- & Ef & ->). exists (v :: a), x, y, b. auto.
Qed.
Lemma modify_nth_length (l l' : list pyv) i f : modify_nth l i f = Ok l' -> length l' = length l.
Proof.
  intros E. destruct (modify_nth_inv _ _ _ _ E) as (a & x & y & b & -> & _ & _ & ->). rewrite !app_length. reflexivity.
Qed.

(** A step that changes, at most, the list element [n], and takes it from [P] to
    [Q]; [pr] selects the list from the state. *)
Definition modifies {St : Type} (pr : St -> list pyv) (n : nat) (f : St -> Res St) (P Q : pyv -> Prop) : Prop :=
  forall s s', (n < length (pr s))%nat -> f s = Ok s' ->
  exists a x y b, pr s = a ++ x :: b /\ length a = n /\ pr s' = a ++ y :: b /\ (P x -> Q y).

Lemma modifies_nth {St} (pr : St -> list pyv) n (f : St -> Res St) (P Q : pyv -> Prop) :
  (forall s s', f s = Ok s' -> exists g, modify_nth (pr s) n g = Ok (pr s') /\ forall x y, P x -> g x = Ok y -> Q y) ->
  modifies pr n f P Q.
Proof.
  intros Hf s s' _ E. destruct (Hf s s' E) as (g & Eg & Hg). destruct (modify_nth_inv _ _ _ _ Eg) as (a & x & y & b & E1 & E2 & E3 & E4).
  exists a, x, y, b. repeat split; auto. intros Hx. eapply Hg; eauto.
Qed.
Lemma modifies_seq {St A} (pr : St -> list pyv) n (l : list A) (f : A -> St -> Res St) (P : nat -> pyv -> Prop) :
  (forall j i, In i l -> modifies pr n (f i) (P j) (P (S j))) -> forall k, modifies pr n (forR l f) (P k) (P (k + length l)%nat).
Proof.
  induction l as [|i l IH]; intros Hf k s s' Hn E; cbn [forR] in E.
  - injection E as <-. destruct (nth_error (pr s) n) as [x|] eqn:Ex.
    + apply nth_error_split in Ex as (a & b & Ea & Hl). exists a, x, x, b. rewrite Nat.add_0_r. auto.
    + apply nth_error_None in Ex. lia.
  - destruct (f i s) as [s1|] eqn:E1; cbn [bindR] in E; [|discriminate].
    destruct (Hf k i (or_introl eq_refl) s s1 Hn E1) as (a & x & y & b & Es & Ha & Es1 & Hxy).
    assert (Hn1 : (n < length (pr s1))%nat).
    { rewrite Es1, app_length. cbn. lia. }
    destruct (IH (fun j i' Hi => Hf j i' (or_intror Hi)) (S k) s1 s' Hn1 E) as (a2 & x2 & y2 & b2 & Es2 & Ha2 & Es' & Hxy2).
    rewrite Es1 in Es2. assert (Eq : a = a2 /\ y = x2 /\ b = b2).
    { assert (Ea : a = a2).
      { apply (f_equal (firstn n)) in Es2. rewrite <- Ha in Es2 at 1. rewrite <- Ha2 in Es2.
        rewrite !firstn_app, !firstn_all, !Nat.sub_diag in Es2. cbn in Es2. now rewrite !app_nil_r in Es2. }
      subst a2. apply app_inv_head in Es2. injection Es2 as -> ->. auto. }
    destruct Eq as (<- & <- & <-). exists a, x, y2, b. repeat split; auto.
    replace (k + length (i :: l))%nat with (S k + length l)%nat by (cbn; lia). auto.
Qed.
Lemma modifies_then {St} (pr : St -> list pyv) n f g P Q R :
  modifies pr n f P Q -> modifies pr n g Q R -> modifies pr n (fun s => bindR (f s) g) P R.
Proof.
  intros Hf Hg s s' Hn E. destruct (f s) as [s1|] eqn:E1; cbn [bindR] in E; [|discriminate].
  destruct (Hf s s1 Hn E1) as (a & x & y & b & Es & Ha & Es1 & Hxy).
  assert (Hn1 : (n < length (pr s1))%nat).
  { rewrite Es1, app_length. cbn. lia. }
  destruct (Hg s1 s' Hn1 E) as (a2 & x2 & y2 & b2 & Es2 & Ha2 & Es' & Hxy2).
  rewrite Es1 in Es2. assert (Eq : a = a2 /\ y = x2 /\ b = b2).
  { assert (Ea : a = a2).
    { apply (f_equal (firstn n)) in Es2. rewrite <- Ha in Es2 at 1. rewrite <- Ha2 in Es2.
      rewrite !firstn_app, !firstn_all, !Nat.sub_diag in Es2. cbn in Es2. now rewrite !app_nil_r in Es2. }
    subst a2. apply app_inv_head in Es2. injection Es2 as -> ->. auto. }
  destruct Eq as (<- & <- & <-). exists a, x, y2, b. repeat split; auto.
Qed.

(** A loop over all elements. *)
Lemma for_all_cols {St} (pr : St -> list pyv) (f : nat -> St -> Res St) (P Q : pyv -> Prop) n s s' :
  (forall i, (i < n)%nat -> modifies pr i (f i) P Q) -> length (pr s) = n ->
  forR (seq 0 n) f s = Ok s' -> Forall P (pr s) -> Forall Q (pr s') /\ length (pr s') = n.
Proof.
  intros Hf Hl E HP.
  assert (K : forall k a s s', (a + k = n)%nat -> length (pr s) = n ->
    (exists u v, pr s = u ++ v /\ length u = a /\ Forall Q u /\ Forall P v) ->
    forR (seq a k) f s = Ok s' -> Forall Q (pr s') /\ length (pr s') = n).
  { clear s s' Hl E HP. induction k as [|k IH]; intros a s s' Ha Hl (u & v & Es & Hu & HQ & HP) E; cbn [seq forR] in E.
    - injection E as <-. split; [|exact Hl]. rewrite Es in *. rewrite app_length in Hl.
      assert (length v = 0)%nat by lia. destruct v; [|discriminate]. now rewrite app_nil_r.
    - destruct (f a s) as [s1|] eqn:E1; cbn [bindR] in E; [|discriminate].
      destruct (Hf a ltac:(lia) s s1 ltac:(lia) E1) as (b & x & y & t & Eb & Hb & Es1 & Hxy).
      assert (Ev : v = x :: t /\ u = b).
      { rewrite Es in Eb. assert (Eu : u = b).
        { apply (f_equal (firstn a)) in Eb. rewrite <- Hu in Eb at 1. rewrite <- Hb in Eb.
          rewrite !firstn_app, !firstn_all, !Nat.sub_diag in Eb. cbn in Eb. now rewrite !app_nil_r in Eb. }
        subst b. apply app_inv_head in Eb. auto. }
      destruct Ev as [-> ->]. inversion HP as [|? ? Hx Ht]. subst.
      eapply (IH (S (length b)) s1 s'); [lia| | |exact E].
      + rewrite Es1, app_length. cbn. rewrite Es, app_length in Hl. cbn in Hl. lia.
      + exists (b ++ [y]), t. rewrite <- app_assoc. repeat split; auto.
        * rewrite app_length. cbn. lia.
        * apply Forall_app. split; [exact HQ|]. constructor; auto. }
  apply (K n 0%nat s s'); auto. exists [], (pr s). auto.
Qed.

(** ** Columns *)
Lemma column_app len l x : column (num:=num) len (PList l) -> is_num x -> column (S len) (PList (l ++ [x])).
Proof.
  intros (l' & [= <-] & Hl & Hn) Hx. exists (l ++ [x]). repeat split.
  - rewrite app_length. cbn. lia.
  - apply Forall_app. auto.
Qed.
Lemma app_item_col len x v v' : column (num:=num) len v -> is_num x -> app_item x v = Ok v' -> column (S len) v'.
Proof.
  intros (l & -> & Hl & Hn) Hx. cbn. intros [= <-]. apply column_app; [|exact Hx]. exists l. auto.
Qed.
Lemma append_each_cols N (v L L' : list pyv) len :
  append_each N v L = Ok L' -> length L = Z.to_nat N -> Forall is_num v ->
  Forall (column len) L -> Forall (column (S len)) L' /\ length L' = Z.to_nat N.
Proof.
  intros E Hl Hv HL. unfold append_each, range in E.
  apply (for_all_cols (fun L => L) _ (column len) (column (S len)) (Z.to_nat N) L L') in E; auto.
  intros i Hi. apply modifies_nth. intros s s' Es. inv_bind Es. exists (app_item a). split; [exact Es|].
  intros x y Hx Hy. eapply app_item_col; eauto. apply nth_res_in in K. rewrite Forall_forall in Hv. auto.
Qed.
Lemma empties_cols z : Forall (column (num:=num) 0) (empties z) /\ length (empties (num:=num) z) = Z.to_nat z.
Proof.
  unfold empties. split; [|apply repeat_length]. apply Forall_forall. intros v Hv. apply repeat_spec in Hv as ->.
  exists []. auto.
Qed.

(** ** The loop over marks *)
Variable h : na num.
Lemma loop_inv c (Inv : nat -> list str -> dst -> Prop) :
  (forall ls m s s1 l1 s2 l2, Inv m ls s -> readData1 h c ls m s = Ok (s1, l1) -> readData2 h c l1 m s1 = Ok (s2, l2) -> Inv (S m) l2 s2) ->
  forall fuel ls m s s', Inv m ls s -> data_loop h c fuel ls m s = Ok s' -> exists M, Inv M [] s'.
Proof.
  intros Hs. induction fuel as [|fuel IH]; intros [|l ls] m s s' Hi E; cbn [data_loop] in E; try discriminate.
  - injection E as <-. eauto.
  - injection E as <-. eauto.
  - inv_bind E. destruct a as [s1 l1]. inv_bind E. destruct a as [s2 l2]. cbn [fst snd] in *.
    eapply IH; [|exact E]. eapply Hs; eauto.
Qed.

(** Each record uses at least one line. *)
Lemma readData1_shorter c ls m s s' rest : readData1 h c ls m s = Ok (s', rest) -> (length rest < length ls)%nat.
Proof.
  assert (Hsl : forall (l : list str) n, (length (slice_from l n) <= length l)%nat).
  { intros l n. unfold slice_from. rewrite skipn_length. lia. }
  destruct c; cbn [readData1];
    unfold readData1_1001, readData1_1010, readData1_2010, readData1_2110, readData1_2160, readData1_2310; intros E;
    repeat first [ inv_bind E | match type of E with (let (_, _) := ?p in _) = _ => destruct p as [? ?] end ];
    injection E as _ <-;
    repeat match goal with K : items_from _ _ _ = Ok _ |- _ => apply items_shorter in K end; try lia.
  match goal with |- context [slice_from ?l ?n] => pose proof (Hsl l n) end. lia.
Qed.
Lemma forR_measure {A St} (mu : St -> nat) (l : list A) f (s s' : St) :
  (forall i s s', f i s = Ok s' -> (mu s' <= mu s)%nat) -> forR l f s = Ok s' -> (mu s' <= mu s)%nat.
Proof.
  intros Hf. revert s. induction l as [|i l IH]; intros s E; cbn [forR] in E; [injection E as <-; lia|].
  inv_bind E. apply Hf in K. apply IH in E. lia.
Qed.
Lemma readData2_shorter c ls m s s' rest : readData2 h c ls m s = Ok (s', rest) -> (length rest <= length ls)%nat.
Proof.
  assert (G2010 : readData2_2010 h ls m s = Ok (s', rest) -> (length rest <= length ls)%nat).
  { unfold readData2_2010. intros E. inv_bind E. inv_bind E. destruct (a <=? 0)%Z; [discriminate|]. inv_bind E. injection E as _ <-.
    apply (forR_measure (fun acc => length (snd acc))) in K1; [exact K1|]. clear. intros n s s' E.
    inv_bind E. match goal with K : items_from _ _ _ = Ok ?p |- _ => destruct p as [? ?]; apply items_shorter in K end. inv_bind E. inv_bind E. inv_bind E. injection E as <-. cbn [snd]. lia. }
  assert (G2110 : readData2_2110 h ls m s = Ok (s', rest) -> (length rest <= length ls)%nat).
  { unfold readData2_2110. intros E. inv_bind E. inv_bind E. inv_bind E. inv_bind E. inv_bind E. destruct a3 as [[? ?] ?]. injection E as _ <-.
    apply (forR_measure (fun acc => length (snd acc))) in K3; [exact K3|]. clear. intros n [[X V] l] s' E.
    inv_bind E. match goal with K : items_from _ _ _ = Ok ?p |- _ => destruct p as [? ?]; apply items_shorter in K end. inv_bind E. inv_bind E. inv_bind E. injection E as <-. cbn [snd]. lia. }
  destruct c; cbn [readData2]; auto;
    unfold readData2_1001, readData2_1010, readData2_1020, readData2_2310; intros E.
  - injection E as <- <-. lia.
  - inv_bind E. inv_bind E. destruct a0 as [? ?]. inv_bind E. injection E as _ <-. apply items_shorter in K0. lia.
  - inv_bind E. inv_bind E. inv_bind E. destruct a1 as [? ?]. inv_bind E. injection E as _ <-. apply items_shorter in K1. lia.
  - inv_bind E. inv_bind E. inv_bind E. inv_bind E. destruct a2 as [? ?]. inv_bind E. injection E as _ <-. apply items_shorter in K2. lia.
Qed.

(** ** Errors of the single steps: none is [EHang] *)
Definition nh {A} (r : Res A) : Prop := r <> Err EHang.
Lemma nh_ok {A} (x : A) : nh (Ok x). Proof. discriminate. Qed.
Lemma nh_bind {A B} (r : Res A) (f : A -> Res B) : nh r -> (forall x, nh (f x)) -> nh (bindR r f).
Proof. unfold nh. destruct r; cbn; auto. intros Hr _ [= ->]. auto. Qed.
Lemma nh_forR {A St} (l : list A) (f : A -> St -> Res St) s : (forall i s, nh (f i s)) -> nh (forR l f s).
Proof. intros Hf. revert s. induction l as [|i l IH]; intros s; cbn [forR]; [apply nh_ok|]. apply nh_bind; auto. Qed.
Lemma nh_mapR {A B} (l : list A) (f : A -> Res B) : (forall i, nh (f i)) -> nh (mapR f l).
Proof. intros Hf E. apply mapR_err in E as (x & _ & E). exact (Hf x E). Qed.
Lemma nh_nth {A} (l : list A) i : nh (nth_res l i).
Proof. unfold nth_res. destruct (nth_error l i); discriminate. Qed.
Lemma nh_as_int (v : pyv) : nh (as_int v). Proof. destruct v; discriminate. Qed.
Lemma nh_as_list (v : pyv) : nh (as_list v). Proof. destruct v; discriminate. Qed.
Lemma nh_h_int k : nh (h_int h k). Proof. apply nh_as_int. Qed.
Lemma nh_app_item (x v : pyv) : nh (app_item x v). Proof. destruct v; discriminate. Qed.
Lemma nh_modify_nth (l : list pyv) i f : (forall v, nh (f v)) -> nh (modify_nth l i f).
Proof.
  intros Hf. revert i. induction l as [|v l IH]; intros [|i]; cbn [modify_nth]; try discriminate; apply nh_bind; auto; intros; apply nh_ok.
Qed.
Lemma nh_modify_in (v : pyv) i f : (forall v, nh (f v)) -> nh (modify_in v i f).
Proof. intros Hf. destruct v; try discriminate. cbn. apply nh_bind; [now apply nh_modify_nth|]. intros; apply nh_ok. Qed.
Lemma nh_conv t s : nh (conv (num:=num) t s). Proof. intros E. apply conv_err in E. discriminate. Qed.
Lemma nh_items ls n t : nh (items_from (num:=num) ls n t).
Proof.
  unfold items_from, readItemsFromUnknownLines. apply nh_bind.
  - intros E. apply unknown_loop_err in E. discriminate.
  - intros [[rt [[|x ex]|]] rest]; cbn; try discriminate. apply nh_bind; [|intros; apply nh_ok]. apply nh_mapR. intros. apply nh_conv.
Qed.
Lemma nh_int_of v : nh (int_of (num:=num) v).
Proof. destruct v; try discriminate. cbn. match goal with |- nh (match ?t with _ => _ end) => destruct t end; discriminate. Qed.
Lemma nh_append_each N v L : nh (append_each (num:=num) N v L).
Proof.
  unfold append_each. apply nh_forR. intros i s. apply nh_bind; [apply nh_nth|]. intros. apply nh_modify_nth. intros. apply nh_app_item.
Qed.
Lemma nh_populator array dims cnt : nh (populator (num:=num) array dims cnt).
Proof.
  revert cnt. induction dims as [|d dims IH]; intros cnt; [discriminate|].
  destruct dims as [|d' dims]; cbn [populator].
  - apply nh_bind; [|intros; apply nh_ok]. apply nh_mapR. intros i. destruct (_ <? 0)%Z; [discriminate|]. apply nh_nth.
  - apply nh_forR. intros i s. apply nh_bind; [apply IH|]. intros; apply nh_ok.
Qed.
Lemma nh_lines ls : nh (readItemsFromLines (num:=num) ls).
Proof.
  unfold readItemsFromLines. apply nh_mapR. intros l. apply nh_conv.
Qed.
Ltac nh := repeat match goal with
  | |- nh (Ok _) => apply nh_ok
  | |- nh (bindR _ _) => apply nh_bind; [|intros ?]
  | |- nh (h_int _ _) => apply nh_h_int
  | |- nh (items_from _ _ _) => apply nh_items
  | |- nh (nth_res _ _) => apply nh_nth
  | |- nh (append_each _ _ _) => apply nh_append_each
  | |- nh (int_of _) => apply nh_int_of
  | |- nh (as_int _) => apply nh_as_int
  | |- nh (app_item _ _) => apply nh_app_item
  | |- nh (populator _ _ _) => apply nh_populator
  | |- nh (readItemsFromLines _) => apply nh_lines
  | |- nh (forR _ _ _) => apply nh_forR; intros ? ?
  | |- nh (mapR _ _) => apply nh_mapR; intros ?
  | |- nh (modify_nth _ _ _) => apply nh_modify_nth; intros ?
  | |- nh (modify_in _ _ _) => apply nh_modify_in; intros ?
  | |- nh (let (_, _) := ?p in _) => destruct p
  | |- nh (if ?b then _ else _) => destruct b
  | |- nh (match ?v with _ => _ end) => destruct v
  | |- nh (Err _) => discriminate
  end.
Lemma nh_readData1 c ls m s : nh (readData1 h c ls m s).
Proof.
  destruct c; cbn [readData1];
    unfold readData1_1001, readData1_1010, readData1_2010, readData1_2110, readData1_2160, readData1_2310; nh.
Qed.
Lemma nh_readData2 c ls m s : nh (readData2 h c ls m s).
Proof.
  destruct c; cbn [readData2];
    unfold readData2_1001, readData2_1010, readData2_1020, readData2_2010, readData2_2110, readData2_2310; nh.
Qed.
Lemma data_loop_nh c fuel ls m s : (length ls <= fuel)%nat -> nh (data_loop h c fuel ls m s).
Proof.
  revert ls m s. induction fuel as [|fuel IH]; intros [|l ls] m s Hl; cbn [data_loop]; try apply nh_ok; [cbn in Hl; lia|].
  destruct (readData1 h c (l :: ls) m s) as [[s1 l1]|] eqn:E1; cbn [bindR fst snd].
  2:{ intros [= ->]. exact (nh_readData1 _ _ _ _ E1). }
  destruct (readData2 h c l1 m s1) as [[s2 l2]|] eqn:E2; cbn [bindR fst snd].
  2:{ intros [= ->]. exact (nh_readData2 _ _ _ _ E2). }
  apply IH. apply readData1_shorter in E1. apply readData2_shorter in E2. cbn in *. lia.
Qed.
(** More fuel changes nothing. *)
Lemma data_loop_fuel c fuel fuel' ls m s : (length ls <= fuel)%nat -> (length ls <= fuel')%nat ->
  data_loop h c fuel ls m s = data_loop h c fuel' ls m s.
Proof.
  revert fuel' ls m s. induction fuel as [|fuel IH]; intros [|fuel'] [|l ls] m s Hl Hl'; cbn [data_loop]; try reflexivity; try (cbn in *; lia).
  destruct (readData1 h c (l :: ls) m s) as [[s1 l1]|] eqn:E1; cbn [bindR fst snd]; [|reflexivity].
  destruct (readData2 h c l1 m s1) as [[s2 l2]|] eqn:E2; cbn [bindR fst snd]; [|reflexivity].
  apply readData1_shorter in E1. apply readData2_shorter in E2. cbn in *. apply IH; lia.
Qed.
Lemma nh_setup c : nh (setupArrays h c).
Proof.
  destruct c; cbn [setupArrays]; unfold setup_1001, setup_1010, setup_2010, setup_2110; unfold h_list, h_mut; nh;
    try apply nh_as_list.
Qed.
Lemma nh_blank b ls : nh (checkForBlankLines b ls).
Proof.
  revert b. induction ls as [|l ls IH]; intros b; cbn [checkForBlankLines]; [apply nh_ok|].
  destruct (is_nil (strip l)); [apply IH|]. destruct b; [discriminate|]. apply nh_bind; [apply IH|]. intros; apply nh_ok.
Qed.

(** ** Shapes: 1001, 1010 and 1020 *)
Definition inv1001 (nv : Z) (m : nat) (s : dst (num:=num)) : Prop :=
  length (d_X s) = m /\ Forall is_num (d_X s) /\ length (d_V s) = Z.to_nat nv /\ Forall (column m) (d_V s).
Definition inv1010 (nv na : Z) (k m : nat) (s : dst (num:=num)) : Prop :=
  length (d_X s) = m /\ Forall is_num (d_X s)
  /\ (length (d_V s) = Z.to_nat nv /\ Forall (column (m * k)) (d_V s))
  /\ (length (d_A s) = Z.to_nat na /\ Forall (column m) (d_A s)).
Lemma skipn_nums (l : list pyv) n : Forall is_num l -> Forall is_num (skipn n l).
Proof. intros Hl. rewrite <- (firstn_skipn n l) in Hl. now apply Forall_app in Hl. Qed.
Lemma nth_num (l : list pyv) n x : Forall is_num l -> nth_res l n = Ok x -> is_num x.
Proof. intros Hl E. apply nth_res_in in E. rewrite Forall_forall in Hl. auto. Qed.

Lemma step_1001 nv ls m s s1 l1 : h_int h kNV = Ok nv -> inv1001 nv m s -> readData1_1001 h ls m s = Ok (s1, l1) -> inv1001 nv (S m) s1.
Proof.
  intros Hnv (Hx & Hxn & Hv & Hvn) E. unfold readData1_1001 in E. rewrite Hnv in E. cbn [bindR] in E.
  inv_bind E. destruct a as [xv rest]. inv_bind E. inv_bind E. injection E as <- _.
  pose proof (items_nums _ _ _ _ K) as Hn. unfold inv1001. cbn [d_X d_V set_X set_V].
  destruct (append_each_cols _ _ _ _ m K1 Hv (skipn_nums _ 1 Hn) Hvn) as [G1 G2]. repeat split; auto.
  - rewrite app_length. cbn. lia.
  - apply Forall_app. split; [exact Hxn|]. constructor; [|constructor]. eapply nth_num; eauto.
Qed.
Lemma step_1010 nv na k ls m s s1 l1 : h_int h kNAUXV = Ok na -> inv1010 nv na k m s ->
  readData1_1010 h ls m s = Ok (s1, l1) ->
  d_V s1 = d_V s /\ length (d_X s1) = S m /\ Forall is_num (d_X s1) /\ length (d_A s1) = Z.to_nat na /\ Forall (column (S m)) (d_A s1).
Proof.
  intros Hna (Hx & Hxn & _ & Ha & Han) E. unfold readData1_1010 in E. rewrite Hna in E. cbn [bindR] in E.
  inv_bind E. destruct a as [xv rest]. inv_bind E. inv_bind E. injection E as <- _.
  pose proof (items_nums _ _ _ _ K) as Hn. cbn [d_X d_V d_A set_X set_V set_A].
  destruct (append_each_cols _ _ _ _ m K1 Ha (skipn_nums _ 1 Hn) Han) as [G1 G2]. repeat split; auto.
  - rewrite app_length. cbn. lia.
  - apply Forall_app. split; [exact Hxn|]. constructor; [|constructor]. eapply nth_num; eauto.
Qed.
Lemma step2_1010 nv ls m s s1 l1 : h_int h kNV = Ok nv -> length (d_V s) = Z.to_nat nv -> Forall (column m) (d_V s) ->
  readData2_1010 h ls m s = Ok (s1, l1) ->
  d_X s1 = d_X s /\ d_A s1 = d_A s /\ length (d_V s1) = Z.to_nat nv /\ Forall (column (S m)) (d_V s1).
Proof.
  intros Hnv Hv Hvn E. unfold readData2_1010 in E. rewrite Hnv in E. cbn [bindR] in E.
  inv_bind E. destruct a as [v rest]. inv_bind E. injection E as <- _.
  pose proof (items_nums _ _ _ _ K) as Hn. cbn [d_X d_V d_A set_V].
  destruct (append_each_cols _ _ _ _ m K0 Hv Hn Hvn) as [G1 G2]. auto.
Qed.
Lemma step2_1020 nv nvpm ls m s s1 l1 : h_int h kNV = Ok nv -> h_int h kNVPM = Ok nvpm ->
  length (d_V s) = Z.to_nat nv -> Forall (column (m * Z.to_nat nvpm)) (d_V s) ->
  readData2_1020 h ls m s = Ok (s1, l1) ->
  d_X s1 = d_X s /\ d_A s1 = d_A s /\ length (d_V s1) = Z.to_nat nv /\ Forall (column (S m * Z.to_nat nvpm)) (d_V s1).
Proof.
  intros Hnv Hpm Hv Hvn E. unfold readData2_1020 in E. rewrite Hnv, Hpm in E. cbn [bindR] in E.
  inv_bind E. destruct a as [v rest]. inv_bind E. injection E as <- _.
  pose proof (items_nums _ _ _ _ K) as Hn. cbn [d_X d_V d_A set_V]. split; [reflexivity|]. split; [reflexivity|].
  apply and_comm. unfold range in K0 at 1.
  apply (for_all_cols (fun L => L) _ (column (m * Z.to_nat nvpm)) (column (S m * Z.to_nat nvpm)) (Z.to_nat nv) (d_V s)) in K0; auto.
  intros i Hi.
  replace (S m * Z.to_nat nvpm)%nat with (m * Z.to_nat nvpm + length (range nvpm))%nat by (unfold range; rewrite seq_length; cbn; lia).
  apply (modifies_seq (fun L => L) i (range nvpm) _ (fun j => column j)).
  intros j i' _. apply modifies_nth. intros t t' Et. inv_bind Et. exists (app_item a0). split; [exact Et|].
  intros x y Hx. apply app_item_col; [exact Hx|]. eapply nth_num; eauto.
Qed.

(** ** Shapes: 2010, 3010 and 4010 *)
Lemma shaped_nums (l : list pyv) : Forall is_num l -> Forall (shaped []) l.
Proof. exact (fun x => x). Qed.
Lemma populator_shaped array : Forall is_num array -> forall dims cnt p cnt', populator (num:=num) array dims cnt = Ok (p, cnt') ->
  shaped (map Z.to_nat dims) (PList p).
Proof.
  intros Ha. induction dims as [|d dims IH]; intros cnt p cnt' E; [discriminate|].
  destruct dims as [|d' dims].
  - cbn [populator] in E. inv_bind E. injection E as <- _. cbn [map shaped]. exists a. split; [reflexivity|].
    pose proof (mapR_length _ _ _ K) as Hl. unfold range in Hl. rewrite seq_length in Hl. split; [exact Hl|].
    apply mapR_forall2 in K. clear -K Ha. induction K as [|x y u v Hx _ IH]; constructor; [|exact IH].
    destruct (_ <? 0)%Z; [discriminate|]. exact (nth_num _ _ _ Ha Hx).
  - change (forR (range d) (fun (_ : nat) (acc : list pyv * Z) =>
          bindR (populator array (d' :: dims) (snd acc)) (fun r => Ok (fst acc ++ [PList (fst r)], snd r))) ([], cnt) = Ok (p, cnt')) in E.
    change (map Z.to_nat (d :: d' :: dims)) with (Z.to_nat d :: map Z.to_nat (d' :: dims)). remember (d' :: dims) as ds.
    cbn [shaped]. exists p. split; [reflexivity|].
    assert (G : forall l acc r, forR l (fun (_ : nat) (acc : list pyv * Z) =>
          bindR (populator array ds (snd acc)) (fun r => Ok (fst acc ++ [PList (fst r)], snd r))) acc = Ok r ->
        Forall (shaped (map Z.to_nat ds)) (fst acc) ->
        length (fst r) = (length (fst acc) + length l)%nat /\ Forall (shaped (map Z.to_nat ds)) (fst r)).
    { clear E. induction l as [|i l IHl]; intros acc r E Hacc; cbn [forR] in E.
      - injection E as <-. cbn. split; [lia|exact Hacc].
      - inv_bind E. inv_bind K. destruct a0 as [q c2]. injection K as <-. apply IH in K0. apply IHl in E as [E1 E2].
        + cbn [fst] in E1. rewrite app_length in E1. cbn in E1. split; [cbn; lia|exact E2].
        + cbn [fst]. apply Forall_app. auto. }
    apply G in E as [E1 E2]; [|constructor]. cbn [fst] in *. unfold range in E1. rewrite seq_length in E1. auto.
Qed.

Lemma modify_in_last (l : list pyv) x m f v : length l = m -> modify_in (PList (l ++ [x])) m f = Ok v ->
  exists y, f x = Ok y /\ v = PList (l ++ [y]).
Proof.
  cbn [modify_in]. intros Hl E. inv_bind E. injection E as <-. apply modify_nth_inv in K as (b & u & w & t & E1 & E2 & E3 & ->).
  assert (l = b /\ x = u /\ t = []) as (-> & -> & ->).
  { assert (l = b).
    { apply (f_equal (firstn m)) in E1. rewrite <- Hl in E1 at 1. rewrite <- E2 in E1.
      rewrite !firstn_app, !firstn_all, !Nat.sub_diag in E1. cbn in E1. now rewrite !app_nil_r in E1. }
    subst b. apply app_inv_head in E1. injection E1 as -> <-. auto. }
  eauto.
Qed.

Definition inv2010 (nx : list Z) (x0 : list pyv) (xr : list pyv) (nv na : Z) (m : nat) (s : dst (num:=num)) : Prop :=
  (exists q, d_X s = PList (x0 ++ q) :: xr /\ length q = m /\ Forall is_num q)
  /\ (length (d_V s) = Z.to_nat nv /\ Forall (blocks (shaped (map Z.to_nat nx)) m) (d_V s))
  /\ (length (d_A s) = Z.to_nat na /\ Forall (column m) (d_A s))
  /\ mapR as_int (d_NX s) = Ok nx.
Lemma step1_2010 nx x0 xr nv na ls m s s1 l1 : h_int h kNAUXV = Ok na -> inv2010 nx x0 xr nv na m s ->
  readData1_2010 h ls m s = Ok (s1, l1) ->
  d_V s1 = d_V s /\ d_NX s1 = d_NX s
  /\ (exists q, d_X s1 = PList (x0 ++ q) :: xr /\ length q = S m /\ Forall is_num q)
  /\ length (d_A s1) = Z.to_nat na /\ Forall (column (S m)) (d_A s1).
Proof.
  intros Hna ((q & Hx & Hq & Hqn) & _ & (Ha & Han) & _) E. unfold readData1_2010 in E. rewrite Hna in E. cbn [bindR] in E.
  inv_bind E. destruct a as [xa rest]. inv_bind E. inv_bind E. inv_bind E. injection E as <- _.
  pose proof (items_nums _ _ _ _ K) as Hn. cbn [d_X d_V d_A d_NX set_X set_V set_A].
  destruct (append_each_cols _ _ _ _ m K2 Ha (skipn_nums _ 1 Hn) Han) as [G1 G2]. repeat split; auto.
  rewrite Hx in K1. cbn in K1. injection K1 as <-. exists (q ++ [a]). rewrite app_assoc. repeat split.
  - rewrite app_length. cbn. lia.
  - apply Forall_app. split; [exact Hqn|]. constructor; [|constructor]. eapply nth_num; eauto.
Qed.
Lemma step2_2010 nx nv ls m s s1 l1 : h_int h kNV = Ok nv -> mapR as_int (d_NX s) = Ok nx ->
  length (d_V s) = Z.to_nat nv -> Forall (blocks (shaped (map Z.to_nat nx)) m) (d_V s) ->
  readData2_2010 h ls m s = Ok (s1, l1) ->
  d_X s1 = d_X s /\ d_A s1 = d_A s /\ d_NX s1 = d_NX s
  /\ length (d_V s1) = Z.to_nat nv /\ Forall (blocks (shaped (map Z.to_nat nx)) (S m)) (d_V s1).
Proof.
  intros Hnv Hnx Hv Hvn E. unfold readData2_2010 in E. rewrite Hnv, Hnx in E. cbn [bindR] in E.
  destruct (nv <=? 0)%Z; [discriminate|]. inv_bind E. injection E as <- _. cbn [d_X d_V d_A d_NX set_V].
  repeat (split; [reflexivity|]). apply and_comm. unfold range in K.
  apply (for_all_cols (@fst (list pyv) (list str)) _ (blocks (shaped (map Z.to_nat nx)) m) (blocks (shaped (map Z.to_nat nx)) (S m))
    (Z.to_nat nv) (d_V s, ls)) in K; auto.
  intros i Hi. intros t t' Ht Et. inv_bind Et. destruct a0 as [v rest]. inv_bind Et. inv_bind Et. inv_bind Et. injection Et as <-.
  cbn [fst].
  apply modify_nth_inv in K1 as (b & x & y & c & E1 & E2 & E3 & ->).
  destruct (modify_nth_inv _ _ _ _ K3) as (b' & x' & y' & c' & F1 & F2 & F3 & ->).
  assert (b = b' /\ y = x' /\ c = c') as (<- & <- & <-).
  { assert (b = b').
    { apply (f_equal (firstn i)) in F1. rewrite <- E2 in F1 at 1. rewrite <- F2 in F1.
      rewrite !firstn_app, !firstn_all, !Nat.sub_diag in F1. cbn in F1. now rewrite !app_nil_r in F1. }
    subst b'. apply app_inv_head in F1. injection F1 as <- <-. auto. }
  exists b, x, y', c. repeat split; auto. intros (l & -> & Hl & HB). cbn in E3. injection E3 as <-.
  apply modify_in_last in F3 as (w & Fw & ->); [|exact Hl]. cbn in Fw. injection Fw as <-.
  exists (l ++ [PList (fst a1)]). repeat split.
  - rewrite app_length. cbn. lia.
  - apply Forall_app. split; [exact HB|]. constructor; [|constructor]. destruct a1 as [p cnt]. cbn [fst].
    eapply populator_shaped; [|exact K2]. eapply items_nums; eauto.
Qed.

(** ** Shapes: 2110, 2160 and 2310 *)
(** A loop over [k] elements from position [a]. *)
Lemma for_some_cols {St} (pr : St -> list pyv) (f : nat -> St -> Res St) (P Q : pyv -> Prop) a k j s s' u w t :
  (forall i, (j <= i < j + k)%nat -> modifies pr (a + i) (f i) P Q) ->
  pr s = u ++ w ++ t -> length u = (a + j)%nat -> length w = k -> Forall P w ->
  forR (seq j k) f s = Ok s' -> exists w', pr s' = u ++ w' ++ t /\ length w' = k /\ Forall Q w'.
Proof.
  revert j s u w. induction k as [|k IH]; intros j s u w Hf Es Hu Hw HP E; cbn [seq forR] in E.
  - injection E as <-. destruct w; [|discriminate]. exists []. auto.
  - destruct w as [|x w]; [discriminate|]. inv_bind E. rename a0 into s1.
    assert (Hn : (a + j < length (pr s))%nat) by (rewrite Es, !app_length; cbn; lia).
    destruct (Hf j ltac:(lia) s s1 Hn K) as (b & x' & y & c & F1 & F2 & F3 & F4). rewrite Es in F1.
    assert (u = b /\ x = x' /\ w ++ t = c) as (<- & <- & <-).
    { assert (u = b).
      { apply (f_equal (firstn (a + j))) in F1. rewrite <- Hu in F1 at 1. rewrite <- F2 in F1.
        rewrite !firstn_app, !firstn_all, !Nat.sub_diag in F1. cbn in F1. now rewrite !app_nil_r in F1. }
      subst b. apply app_inv_head in F1. cbn in F1. injection F1 as <- <-. auto. }
    inversion HP as [|? ? Hx Hw']. subst.
    destruct (IH (S j) s1 (u ++ [y]) w) as (w' & G1 & G2 & G3); auto.
    + intros i Hi. apply Hf. lia.
    + rewrite F3, <- app_assoc. reflexivity.
    + rewrite app_length. cbn. lia.
    + exists (y :: w'). rewrite G1, <- app_assoc. cbn. repeat split; auto.
Qed.
Lemma forR_count {A St} (I : nat -> St -> Prop) (f : A -> St -> Res St) :
  (forall j i s s', I j s -> f i s = Ok s' -> I (S j) s') ->
  forall l j s s', I j s -> forR l f s = Ok s' -> I (j + length l)%nat s'.
Proof.
  intros Hf. induction l as [|i l IH]; intros j s s' Hi E; cbn [forR] in E.
  - injection E as <-. rewrite Nat.add_0_r. exact Hi.
  - inv_bind E. replace (j + length (i :: l))%nat with (S j + length l)%nat by (cbn; lia). eapply IH; eauto.
Qed.

Definition open_block (ks : list nat) (j : nat) (v : pyv) : Prop :=
  exists l b, v = PList (l ++ [PList b]) /\ Forall2 column ks l /\ length b = j /\ Forall is_num b.
Lemma open_append m ks j y v v' : length ks = m -> is_num y -> open_block ks j v ->
  modify_in v m (app_item y) = Ok v' -> open_block ks (S j) v'.
Proof.
  intros Hm Hy (l & b & -> & Hl & Hb & Hbn) E. assert (length l = m) by (rewrite <- Hm; symmetry; eapply Forall2_len; eauto).
  apply modify_in_last in E as (w & Ew & ->); [|assumption]. cbn in Ew. injection Ew as <-.
  exists l, (b ++ [y]). repeat split; auto.
  - rewrite app_length. cbn. lia.
  - apply Forall_app. auto.
Qed.
Lemma ragged_snoc ks k l b : Forall2 column ks l -> length b = k -> Forall is_num b -> ragged (ks ++ [k]) (PList (num:=num) (l ++ [PList b])).
Proof.
  intros Hl Hb Hn. exists (l ++ [PList b]). split; [reflexivity|]. apply Forall2_app; [exact Hl|]. constructor; [|constructor]. exists b. auto.
Qed.

Definition nats (zs : list Z) : list nat := map Z.to_nat zs.
Lemma append_each_head N (v L : list pyv) a0 ar L' : (0 < N)%Z -> append_each N v (PList a0 :: ar) = Ok L' ->
  exists x ar', nth_res v 0 = Ok x /\ L' = PList (a0 ++ [x]) :: ar'.
Proof.
  intros HN E. unfold append_each, range in E. destruct (Z.to_nat N) as [|k] eqn:Ek; [lia|]. clear HN Ek. cbn [seq forR] in E.
  inv_bind E. inv_bind K. cbn in K. injection K as <-. exists a1.
  assert (G : forall l acc L', ~ In 0%nat l -> forR l (fun n L => bindR (nth_res v n) (fun x => modify_nth L n (app_item x))) acc = Ok L' ->
    forall h t, acc = h :: t -> exists t', L' = h :: t').
  { clear. induction l as [|i l IH]; intros acc L' Hi E h t ->; cbn [forR] in E; [injection E as <-; eauto|].
    inv_bind E. inv_bind K. destruct i as [|i]; [exfalso; apply Hi; now left|]. cbn [modify_nth] in K. inv_bind K. injection K as <-.
    apply (IH _ _ (fun Hin => Hi (or_intror Hin)) E _ _ eq_refl). }
  assert (Hi : ~ In 0%nat (seq 1 k)) by (intros Hin; apply in_seq in Hin; lia).
  destruct (G _ _ _ Hi E _ _ eq_refl) as [t' ->]. eauto.
Qed.
(** NX of a mark is the integer part of its first auxiliary value. *)
Definition nx_is_aux (zs : list Z) (A : list pyv) : Prop :=
  forall a0 ar, A = PList a0 :: ar -> Forall2 (fun v z => int_of v = Ok z) a0 zs.
Lemma nx_is_aux_step na zs A aux A' a0 z m : append_each na aux A = Ok A' -> length A = Z.to_nat na -> Forall (column m) A ->
  nth_res aux 0 = Ok a0 -> int_of a0 = Ok z -> nx_is_aux zs A -> nx_is_aux (zs ++ [z]) A'.
Proof.
  intros E Hl HA Ha Hz HI b br EA'. destruct A as [|a A].
  - unfold append_each, range in E. rewrite <- Hl in E. cbn in E. injection E as <-. discriminate.
  - inversion HA as [|? ? (l & -> & _) _]. subst. apply append_each_head in E as (x & ar' & Ex & [= -> ->]).
    + rewrite Ha in Ex. injection Ex as <-. apply Forall2_app; [eapply HI; eauto|]. constructor; auto.
    + exact A.
    + cbn in Hl. lia.
Qed.
Definition inv2110 (X : nat -> pyv -> Prop) (A : nat -> list pyv -> Prop) (nv : Z) (m : nat) (s : dst (num:=num)) : Prop :=
  exists zs, length zs = m /\ d_NX s = map PInt zs
  /\ Forall2 X (nats zs) (d_X s)
  /\ (length (d_V s) = Z.to_nat nv /\ Forall (ragged (nats zs)) (d_V s))
  /\ A m (d_A s) /\ nx_is_aux zs (d_A s).
(** After the first step of a record the mark is open. *)
Definition mid2110 (P : pyv -> Prop) (A : nat -> list pyv -> Prop) (nv : Z) (m : nat) (s : dst (num:=num)) : Prop :=
  exists zs z x Xs, length zs = m /\ d_NX s = map PInt (zs ++ [z])
  /\ d_X s = Xs ++ [PList [x; PList []]] /\ P x /\ Forall2 (mark_with_points P) (nats zs) Xs
  /\ (length (d_V s) = Z.to_nat nv /\ Forall (ragged (nats zs)) (d_V s))
  /\ A (S m) (d_A s) /\ nx_is_aux (zs ++ [z]) (d_A s).
Definition auxcols (na : Z) (m : nat) (A : list pyv) : Prop := length A = Z.to_nat na /\ Forall (column m) A.
Lemma step1_2110 nv na ls m s s1 l1 : h_int h kNAUXV = Ok na -> inv2110 (mark_with_points is_num) (auxcols na) nv m s ->
  readData1_2110 h ls m s = Ok (s1, l1) -> mid2110 is_num (auxcols na) nv m s1.
Proof.
  intros Hna (zs & Hm & Hnx & Hx & Hv & (Ha & Han) & Hi) E. unfold readData1_2110 in E. rewrite Hna in E. cbn [bindR] in E.
  inv_bind E. destruct a as [xa rest]. inv_bind E. inv_bind E. inv_bind E. inv_bind E. injection E as <- _.
  pose proof (items_nums _ _ _ _ K) as Hn. unfold mid2110. cbn [d_X d_V d_A d_NX set_X set_V set_A set_NX].
  destruct (append_each_cols _ _ _ _ m K1 Ha (skipn_nums _ 1 Hn) Han) as [G1 G2].
  exists zs, a2, a, (d_X s). rewrite map_app, Hnx. repeat split; auto; try apply Hv.
  - eapply nth_num; eauto.
  - eapply nx_is_aux_step; eauto.
Qed.
Lemma step2_2110 P A nv ls m s s1 l1 : h_int h kNV = Ok nv -> mid2110 P A nv m s ->
  readData2_2110 h ls m s = Ok (s1, l1) -> inv2110 (mark_with_points P) A nv (S m) s1.
Proof.
  intros Hnv (zs & z & x & Xs & Hm & Hnx & Hx & Px & HX & (Hv & Hvn) & HA & Hi) E. unfold readData2_2110 in E. rewrite Hnv in E. cbn [bindR] in E.
  inv_bind E. rename a into V0. inv_bind E. inv_bind E. inv_bind E. destruct a1 as [[X1 V1] rest]. injection E as <- _.
  assert (a = PInt z).
  { unfold nth_res in K0. rewrite Hnx, map_app, nth_error_app2 in K0 by (rewrite map_length; lia).
    rewrite map_length, Hm, Nat.sub_diag in K0. cbn in K0. congruence. }
  subst a. cbn in K1. injection K1 as <-.
  assert (Hks : length (nats zs) = m) by (unfold nats; now rewrite map_length).
  assert (HXs : length Xs = m) by (rewrite <- Hks; symmetry; eapply Forall2_len; eauto).
  assert (H0 : Forall (open_block (nats zs) 0) V0 /\ length V0 = Z.to_nat nv).
  { unfold range in K. apply (for_all_cols (fun L => L) _ (ragged (nats zs)) (open_block (nats zs) 0) (Z.to_nat nv) (d_V s)) in K; auto.
    intros i Hi'. apply modifies_nth. intros t t' Et. exists (app_item (PList [])). split; [exact Et|].
    intros u w (l & -> & Hl). cbn. intros [= <-]. exists l, []. auto. }
  pose (I := fun (j : nat) (acc : list pyv * list pyv * list str) => let '(X, V, _) := acc in
    (exists b, X = Xs ++ [PList [x; PList b]] /\ length b = j /\ Forall is_num b)
    /\ Forall (open_block (nats zs) j) V /\ length V = Z.to_nat nv).
  apply (forR_count I) with (j := 0%nat) in K2.
  - unfold range in K2. rewrite seq_length in K2. destruct K2 as ((b & -> & Hb & Hbn) & HV & HVl). cbn [Nat.add] in *.
    exists (zs ++ [z]). unfold nats. cbn [d_X d_V d_A d_NX set_X set_V].
    rewrite app_length. replace (map Z.to_nat (zs ++ [z])) with (map Z.to_nat zs ++ [Z.to_nat z]) by now rewrite map_app.
    cbn [length]. repeat split; auto.
    + lia.
    + apply Forall2_app; [exact HX|]. constructor; [|constructor]. exists x, b. split; [reflexivity|]. split; [exact Px|]. exists b. auto.
    + eapply Forall_impl; [|exact HV]. intros v (l & c & -> & Hl & Hc & Hcn). apply ragged_snoc; auto.
  - clear K2 rest X1 V1. intros j i [[X V] ls'] s' (HIX & HIV & HIl) E.
    inv_bind E. destruct a as [xv rest]. inv_bind E. inv_bind E. inv_bind E. injection E as <-.
    pose proof (items_nums _ _ _ _ K1) as Hn. destruct HIX as (b & -> & Hb & Hbn). unfold I. split.
    + apply modify_nth_inv in K3 as (p & u & w & t & E1 & E2 & E3 & ->).
      assert (Xs = p /\ PList [x; PList b] = u /\ [] = t) as (<- & <- & <-).
      { assert (Xs = p).
        { apply (f_equal (firstn m)) in E1. rewrite <- HXs in E1 at 1. rewrite <- E2 in E1.
          rewrite !firstn_app, !firstn_all, !Nat.sub_diag in E1. cbn in E1. now rewrite !app_nil_r in E1. }
        subst p. apply app_inv_head in E1. injection E1 as <- <-. auto. }
      cbn in E3. injection E3 as <-. exists (b ++ [a]). repeat split.
      * rewrite app_length. cbn. lia.
      * apply Forall_app. split; [exact Hbn|]. constructor; [|constructor]. eapply nth_num; eauto.
    + unfold range in K4.
      apply (for_all_cols (fun L => L) _ (open_block (nats zs) j) (open_block (nats zs) (S j)) (Z.to_nat nv) V) in K4; auto.
      intros i' Hi'. apply modifies_nth. intros t t' Et. inv_bind Et. eexists. split; [exact Et|].
      cbv beta. intros u w Hu Hw. eapply open_append; eauto. eapply nth_num; [|exact K5]. now apply skipn_nums.
  - unfold I. repeat split; auto; try apply H0. exists []. auto.
Qed.

(** FFI 2160: the last NAUXC auxiliary variables are texts. *)
Definition auxcols_2160 (na nc : Z) (m : nat) (A : list pyv) : Prop :=
  length A = Z.to_nat na /\ ((m = 0%nat /\ A = empties na) \/
  ((0 <= nc < na)%Z /\ exists B C, A = B ++ C /\ length B = Z.to_nat (na - nc) /\ length C = Z.to_nat nc
    /\ Forall (column m) B /\ Forall (str_column m) C)).
Lemma append_each_bound N (v L L' : list pyv) : append_each N v L = Ok L' -> (Z.to_nat N <= length L)%nat.
Proof.
  unfold append_each, range.
  assert (G : forall l acc L', forR l (fun n L => bindR (nth_res v n) (fun x => modify_nth L n (app_item x))) acc = Ok L' ->
    forall i, In i l -> (i < length acc)%nat).
  { clear. induction l as [|i l IH]; intros acc L' E j Hj; [destruct Hj|]. cbn [forR] in E. inv_bind E. inv_bind K.
    pose proof (modify_nth_length _ _ _ _ K) as Hl. destruct Hj as [<- | Hj].
    - apply modify_nth_inv in K as (b & ? & ? & c & -> & <- & _). rewrite app_length. cbn. lia.
    - rewrite <- Hl. eapply IH; eauto. }
  intros E. destruct (Z.to_nat N) as [|k] eqn:Ek; [lia|]. specialize (G _ _ _ E k). rewrite in_seq in G. lia.
Qed.
Lemma str_items ls (vs : list pyv) : readItemsFromLines ls = Ok vs -> Forall is_str vs.
Proof.
  unfold readItemsFromLines. intros E. apply mapR_forall2 in E. induction E as [|x y a b Hx _ IH]; constructor; [|exact IH].
  unfold readItemFromLine in Hx. cbn in Hx. injection Hx as <-. eexists. reflexivity.
Qed.
Lemma step1_2160 nv na nc ls m s s1 l1 : h_int h kNAUXV = Ok na -> h_int h kNAUXC = Ok nc ->
  inv2110 (mark_with_points is_word) (auxcols_2160 na nc) nv m s ->
  readData1_2160 h ls m s = Ok (s1, l1) -> mid2110 is_word (auxcols_2160 na nc) nv m s1.
Proof.
  intros Hna Hnc (zs & Hm & Hnx & Hx & Hv & (Ha & Han) & Hi) E. unfold readData1_2160 in E. rewrite Hna, Hnc in E. cbn [bindR] in E.
  inv_bind E. destruct a as [x1 ls1]. inv_bind E. rename a into x. inv_bind E. destruct a as [aux ls2]. inv_bind E. rename a into a0.
  inv_bind E. rename a into z. inv_bind E. rename a into A1. inv_bind E. rename a into auxc. inv_bind E. rename a into A2. injection E as <- _.
  pose proof (items_nums _ _ _ _ K1) as Hn. pose proof (str_items _ _ K5) as Hs.
  assert (Hpos : (0 < na - nc)%Z). { destruct (items_ok _ _ _ _ _ K1) as (? & ? & _ & _ & Hlt & _). lia. }
  pose proof (append_each_bound _ _ _ _ K4) as Hb.
  assert (Hnc0 : (0 <= nc < na)%Z) by lia.
  assert (Hsplit : exists B C, d_A s = B ++ C /\ length B = Z.to_nat (na - nc) /\ length C = Z.to_nat nc
    /\ Forall (column m) B /\ Forall (str_column m) C).
  { destruct Han as [[-> EA] | [_ G]]; [|exact G]. rewrite EA. exists (empties (na - nc)), (empties nc).
    unfold empties. rewrite <- repeat_app, !repeat_length. repeat split; auto.
    - f_equal. lia.
    - apply Forall_forall. intros v Hin. apply repeat_spec in Hin as ->. exists []. auto.
    - apply Forall_forall. intros v Hin. apply repeat_spec in Hin as ->. exists []. auto. }
  clear Han. destruct Hsplit as (B & C & EA & HB & HC & HBn & HCn).
  assert (G1 : exists B', A1 = B' ++ C /\ length B' = Z.to_nat (na - nc) /\ Forall (column (S m)) B').
  { unfold append_each, range in K4.
    apply (for_some_cols (fun L => L) _ (column m) (column (S m)) 0 (Z.to_nat (na - nc)) 0 (d_A s) A1 [] B C) in K4; auto.
    intros i Hi'. apply modifies_nth. intros t t' Et. inv_bind Et. exists (app_item a). split; [exact Et|].
    intros u w Hu. apply app_item_col; [exact Hu|]. eapply nth_num; eauto. }
  destruct G1 as (B' & -> & HB' & HBn').
  assert (G2 : exists C', A2 = B' ++ C' /\ length C' = Z.to_nat nc /\ Forall (str_column (S m)) C').
  { unfold range in K6.
    apply (for_some_cols (fun L => L) _ (str_column m) (str_column (S m)) (Z.to_nat (na - nc)) (Z.to_nat nc) 0 (B' ++ C) A2 B' C []) in K6; auto.
    - destruct K6 as (C' & -> & G). exists C'. now rewrite app_nil_r.
    - intros i Hi'. apply modifies_nth. intros t t' Et. inv_bind Et. destruct (_ <? 0)%Z; [discriminate|].
      exists (app_item a). split; [exact Et|].
      intros u w (l & -> & Hl & Hln). cbn. intros [= <-]. exists (l ++ [a]). repeat split.
      + rewrite app_length. cbn. lia.
      + apply Forall_app. split; [exact Hln|]. constructor; [|constructor]. apply nth_res_in in K7. rewrite Forall_forall in Hs. auto.
    - now rewrite app_nil_r.
    - lia. }
  destruct G2 as (C' & -> & HC' & HCn').
  exists zs, z, x, (d_X s). cbn [d_X d_V d_A d_NX set_X set_V set_A set_NX]. rewrite map_app, Hnx. repeat split; auto; try apply Hv.
  - pose proof (items_strs _ _ _ _ K) as Hxs. rewrite Forall_forall in Hxs. apply Hxs. eapply nth_res_in; eauto.
  - rewrite app_length, HB', HC'. lia.
  - right. split; [exact Hnc0|]. exists B', C'. auto.
  - intros b br EA'. destruct B as [|b0 B]; [cbn in HB; lia|]. rewrite EA in *. cbn in K4.
    inversion HBn as [|? ? (l & -> & _) _]. subst. apply append_each_head in K4 as (y & ar' & Ey & E4); [|exact B|lia].
    rewrite K2 in Ey. injection Ey as <-. destruct B' as [|b1 B']; [cbn in HB'; lia|]. cbn in E4, EA'.
    injection E4 as -> _. injection EA' as <- _. apply Forall2_app; [eapply Hi; reflexivity|]. constructor; auto.
Qed.

(** FFI 2310. *)
Definition dx_read (dx0 : list pyv) (m : nat) (s : dst (num:=num)) : Prop :=
  exists zs, length zs = m /\ d_DX s = dx0 ++ map PInt zs.
Lemma step1_2310 dx0 nv na ls m s s1 l1 : h_int h kNAUXV = Ok na ->
  inv2110 (fun _ => mark_with_start) (auxcols na) nv m s -> dx_read dx0 m s ->
  readData1_2310 h ls m s = Ok (s1, l1) ->
  dx_read dx0 (S m) s1 /\
  exists zs z, length zs = m /\ d_NX s1 = map PInt (zs ++ [z])
  /\ Forall2 (fun _ => mark_with_start) (nats (zs ++ [z])) (d_X s1)
  /\ (length (d_V s1) = Z.to_nat nv /\ Forall (ragged (nats zs)) (d_V s1))
  /\ auxcols na (S m) (d_A s1) /\ nx_is_aux (zs ++ [z]) (d_A s1).
Proof.
  intros Hna (zs & Hm & Hnx & Hx & Hv & (Ha & Han) & Hi) (ds & Hd & Hdx) E. unfold readData1_2310 in E. rewrite Hna in E. cbn [bindR] in E.
  inv_bind E. destruct a as [xa rest]. inv_bind E. rename a into x. inv_bind E. rename a into A'. inv_bind E. rename a into a1.
  inv_bind E. rename a into a0. inv_bind E. rename a into z. inv_bind E. rename a into a2. inv_bind E. rename a into dz. injection E as <- _.
  pose proof (items_nums _ _ _ _ K) as Hn. cbn [d_X d_V d_A d_NX set_X set_V set_A set_NX set_DX].
  destruct (append_each_cols _ _ _ _ m K1 Ha (skipn_nums _ 1 Hn) Han) as [G1 G2]. split.
  - exists (ds ++ [dz]). cbn [d_DX]. rewrite Hdx, map_app, app_length, app_assoc. split; [cbn; lia|reflexivity].
  - exists zs, z. unfold nats. repeat split; auto; try apply Hv.
    + cbn. now rewrite map_app, Hnx.
    + rewrite map_app. cbn. apply Forall2_app; [exact Hx|]. constructor; [|constructor]. exists x, a1. repeat split.
      * eapply nth_num; eauto.
      * eapply nth_num; [|exact K2]. now apply skipn_nums.
    + eapply nx_is_aux_step; eauto.
Qed.
Lemma step2_2310 A dx0 nv ls m s s1 l1 : h_int h kNV = Ok nv -> dx_read dx0 (S m) s ->
  (exists zs z, length zs = m /\ d_NX s = map PInt (zs ++ [z])
  /\ Forall2 (fun _ => mark_with_start) (nats (zs ++ [z])) (d_X s)
  /\ (length (d_V s) = Z.to_nat nv /\ Forall (ragged (nats zs)) (d_V s))
  /\ A (S m) (d_A s) /\ nx_is_aux (zs ++ [z]) (d_A s)) ->
  readData2_2310 h ls m s = Ok (s1, l1) -> inv2110 (fun _ => mark_with_start) A nv (S m) s1 /\ dx_read dx0 (S m) s1.
Proof.
  intros Hnv Hdx (zs & z & Hm & Hnx & HX & (Hv & Hvn) & HA & Hi) E. unfold readData2_2310 in E. rewrite Hnv in E. cbn [bindR] in E.
  inv_bind E. inv_bind E. inv_bind E. destruct a1 as [v rest]. inv_bind E. injection E as <- _.
  assert (a = PInt z).
  { unfold nth_res in K. rewrite Hnx, map_app, nth_error_app2 in K by (rewrite map_length; lia).
    rewrite map_length, Hm, Nat.sub_diag in K. cbn in K. congruence. }
  subst a. cbn in K0. injection K0 as <-.
  pose proof (items_nums _ _ _ _ K1) as Hn.
  assert (Hks : length (nats zs) = m) by (unfold nats; now rewrite map_length).
  split; [|exact Hdx]. exists (zs ++ [z]). cbn [d_X d_V d_A d_NX set_X set_V].
  split; [rewrite app_length; cbn; lia|]. repeat (split; [assumption|]). split; [|auto].
  unfold range in K2 at 1.
  apply (for_all_cols (fun L => L) _ (ragged (nats zs)) (ragged (nats (zs ++ [z]))) (Z.to_nat nv) (d_V s)) in K2; auto.
  - split; apply K2.
  - intros i Hi'. apply (modifies_then (fun L => L) i _ _ (ragged (nats zs)) (open_block (nats zs) 0)).
    + apply modifies_nth. intros t t' Et. exists (app_item (PList [])). split; [exact Et|].
      intros u w (l & -> & Hl). cbn. intros [= <-]. exists l, []. auto.
    + intros t t' Ht Et.
      assert (M : modifies (fun L => L) i (forR (range z) (fun i0 V => bindR (nth_res v (i * Z.to_nat z + i0))
          (fun y => modify_nth V i (fun vn => modify_in vn m (app_item y))))) (open_block (nats zs) 0) (open_block (nats zs) (0 + length (range z)))).
      { apply (modifies_seq (fun L => L) i (range z) _ (open_block (nats zs))). intros j i' _. apply modifies_nth.
        intros u u' Eu. inv_bind Eu. eexists. split; [exact Eu|]. cbv beta. intros p q Hp Hq. eapply open_append; eauto. eapply nth_num; eauto. }
      destruct (M t t' Ht Et) as (b & p & q & c & E1 & E2 & E3 & E4). exists b, p, q, c. repeat split; auto.
      intros Hp. destruct (E4 Hp) as (l & bl & -> & Hl & Hb & Hbn). unfold nats. rewrite map_app. cbn [map].
      unfold range in Hb. rewrite seq_length in Hb. apply ragged_snoc; auto.
Qed.
End Loops.
