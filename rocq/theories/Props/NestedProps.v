(** Property C48: building a nested list from a flat sequence and writing it
    are inverse.  [populator], [writeLines] are the model of
    nappy/utils/list_manipulator.py (Model/NARead.v, Model/NAWrite.v); the
    vocabulary is in Spec/NestedSpec.v. *)
From Coq Require Import List NArith ZArith Bool Lia.
From Verif Require Import Py.Str Py.Res Py.Num Model.Dict Model.TextParser Model.CommonUtils
  Model.NAWrite Model.NARead Spec.ZNum Spec.Samples Spec.NestedSpec.
Import ListNotations.

Section General.
Context {num : Type} `{NumOps num}.
Local Notation pyv := (pyv num).

(** The block of sizes [ds] that starts at position [off]. *)
Fixpoint block (array : list pyv) (ds : list nat) (off : nat) : pyv :=
  match ds with
  | [] => nth off array PNone
  | d :: rest => PList (map (fun i => block array rest (off + i * size rest)) (seq 0 d))
  end.
Definition subs (array : list pyv) (d : nat) (rest : list nat) (off : nat) : list pyv :=
  map (fun i => block array rest (off + i * size rest)) (seq 0 d).

Lemma mapR_seq_ok {A} (f : nat -> Res A) g a n : (forall i, (a <= i < a + n)%nat -> f i = Ok (g i)) ->
  mapR f (seq a n) = Ok (map g (seq a n)).
Proof.
  revert a. induction n as [|n IH]; intros a Hf; [reflexivity|]. cbn [seq mapR map].
  rewrite Hf by lia. cbn [bindR]. rewrite IH by (intros; apply Hf; lia). reflexivity.
Qed.
Lemma mapR_seq_err {A} (f : nat -> Res A) g e a n k : (k < n)%nat ->
  (forall i, (a <= i < a + k)%nat -> f i = Ok (g i)) -> f (a + k)%nat = Err e ->
  mapR f (seq a n) = Err e.
Proof.
  revert a k. induction n as [|n IH]; intros a k Hk Hf He; [lia|]. cbn [seq mapR].
  destruct k as [|k].
  - rewrite Nat.add_0_r in He. now rewrite He.
  - rewrite Hf by lia. cbn [bindR]. rewrite (IH (S a) k); auto; try lia.
    + intros i Hi. apply Hf. lia.
    + now replace (S a + k)%nat with (a + S k)%nat by lia.
Qed.
Lemma populator_cons array d d' ds cnt :
  populator (num:=num) array (map Z.of_nat (d :: d' :: ds)) cnt =
  forR (seq 0 d) (fun _ (acc : list pyv * Z) =>
    bindR (populator array (map Z.of_nat (d' :: ds)) (snd acc))
          (fun r => Ok (fst acc ++ [PList (fst r)], snd r))) ([], cnt).
Proof. change (seq 0 d) with (seq 0 d). rewrite <- (Nat2Z.id d) at 2. reflexivity. Qed.
Lemma size_cons d ds : size (d :: ds) = (d * size ds)%nat. Proof. reflexivity. Qed.

Lemma populator_block array ds : forall d off, (size (d :: ds) = 0 \/ off + size (d :: ds) <= length array)%nat ->
  populator array (map Z.of_nat (d :: ds)) (Z.of_nat off)
  = Ok (subs array d ds off, Z.of_nat (off + size (d :: ds))).
Proof.
  induction ds as [|d' ds IH]; intros d off Hs.
  - cbn [map populator]. unfold range. rewrite Nat2Z.id. rewrite size_cons in *. cbn [size fold_right] in *.
    rewrite (mapR_seq_ok _ (fun i => nth (off + i) array PNone)).
    + cbn [bindR]. f_equal. f_equal; [|lia]. unfold subs. apply map_ext. intros i. cbn [block size fold_right].
      f_equal. lia.
    + intros i Hi. destruct (Z.ltb_spec (Z.of_nat off + Z.of_nat i) 0); [lia|].
      unfold nth_res. replace (Z.to_nat _) with (off + i)%nat by lia.
      rewrite (nth_error_nth' array PNone) by lia. reflexivity.
  - rewrite populator_cons.
    assert (K : forall n a acc, (a + n <= d)%nat ->
      forR (seq a n) (fun _ (acc : list pyv * Z) =>
        bindR (populator array (map Z.of_nat (d' :: ds)) (snd acc))
              (fun r => Ok (fst acc ++ [PList (fst r)], snd r))) (acc, Z.of_nat (off + a * size (d' :: ds)))
      = Ok (acc ++ map (fun i => block array (d' :: ds) (off + i * size (d' :: ds))) (seq a n),
            Z.of_nat (off + (a + n) * size (d' :: ds)))).
    { induction n as [|n IHn]; intros a acc Ha.
      - cbn [seq forR map]. rewrite app_nil_r, Nat.add_0_r. reflexivity.
      - cbn [seq forR]. rewrite (map_cons _ a). cbn [fst snd].
        rewrite IH.
        2:{ rewrite (size_cons d) in Hs. destruct Hs as [Hs|Hs].
            - left. destruct (size (d' :: ds)); [auto|]. destruct d; [lia|discriminate].
            - destruct (size (d' :: ds)) as [|z]; [auto|]. right. nia. }
        cbn [bindR fst snd].
        replace (off + a * size (d' :: ds) + size (d' :: ds))%nat with (off + S a * size (d' :: ds))%nat by (cbn [Nat.mul]; lia).
        rewrite IHn by lia. rewrite <- app_assoc. cbn [app]. f_equal. f_equal.
        f_equal. lia. }
    specialize (K d 0%nat []). rewrite Nat.mul_0_l, Nat.add_0_r in K. rewrite K by lia. cbn [app Nat.add]. reflexivity.
Qed.

Lemma populator_short (array : list pyv) ds : forall d off, (0 < size (d :: ds))%nat -> (length array < off + size (d :: ds))%nat ->
  populator array (map Z.of_nat (d :: ds)) (Z.of_nat off) = Err EIndexError.
Proof.
  induction ds as [|d' ds IH]; intros d off H0 Hs.
  - cbn [map populator]. unfold range. rewrite Nat2Z.id. rewrite size_cons in *. cbn [size fold_right] in *.
    rewrite (mapR_seq_err _ (fun i => nth (off + i) array PNone) EIndexError 0 d (length array - off)); auto; try lia.
    + intros i Hi. destruct (Z.ltb_spec (Z.of_nat off + Z.of_nat i) 0); [lia|].
      unfold nth_res. replace (Z.to_nat _) with (off + i)%nat by lia.
      rewrite (nth_error_nth' array PNone) by lia. reflexivity.
    + destruct (Z.ltb_spec (Z.of_nat off + Z.of_nat (0 + (length array - off))) 0); [lia|].
      unfold nth_res. replace (Z.to_nat _) with (off + (length array - off))%nat by lia.
      rewrite (proj2 (nth_error_None array _)) by lia. reflexivity.
  - rewrite populator_cons.
    assert (K : forall n a acc, (0 < n)%nat -> (length array < off + (a + n) * size (d' :: ds))%nat ->
      (0 < size (d' :: ds))%nat ->
      forR (seq a n) (fun _ (acc : list pyv * Z) =>
        bindR (populator array (map Z.of_nat (d' :: ds)) (snd acc))
              (fun r => Ok (fst acc ++ [PList (fst r)], snd r))) (acc, Z.of_nat (off + a * size (d' :: ds)))
      = Err EIndexError).
    { induction n as [|n IHn]; intros a acc Ha Hn Hz; [lia|].
      cbn [seq forR]. cbn [fst snd].
      destruct (Nat.ltb_spec (length array) (off + a * size (d' :: ds) + size (d' :: ds))) as [Hlt|Hge].
      - rewrite IH by auto. reflexivity.
      - rewrite populator_block by auto. cbn [bindR fst snd].
        replace (off + a * size (d' :: ds) + size (d' :: ds))%nat with (off + S a * size (d' :: ds))%nat by (cbn [Nat.mul]; lia).
        apply IHn; auto.
        + destruct n; [|lia]. exfalso. rewrite Nat.add_1_r in Hn. cbn [Nat.mul] in Hn. lia.
        + now replace (S a + n)%nat with (a + S n)%nat by lia. }
    rewrite (size_cons d) in *. specialize (K d 0%nat []). rewrite Nat.mul_0_l, Nat.add_0_r in K. apply K.
    + destruct d; [cbn [Nat.mul] in H0; lia|lia].
    + cbn [Nat.add]. exact Hs.
    + destruct (size (d' :: ds)); [rewrite Nat.mul_0_r in H0; lia|lia].
Qed.

Lemma block_sizes array ds off : has_sizes ds (block array ds off).
Proof.
  revert off. induction ds as [|d ds IH]; intros off; [exact I|]. cbn [block has_sizes].
  eexists. split; [reflexivity|]. split; [now rewrite map_length, seq_length|].
  apply Forall_map, Forall_forall. auto.
Qed.
Lemma block_element array ds : forall idx off, Forall2 lt idx ds -> (off + size ds <= length array)%nat ->
  element (block array ds off) idx = nth_error array (off + row_major ds idx).
Proof.
  induction ds as [|d ds IH]; intros idx off Hi Hs.
  - inversion Hi; subst. cbn [element block row_major]. cbn [size fold_right] in Hs.
    rewrite Nat.add_0_r. symmetry. apply nth_error_nth'. lia.
  - inversion Hi as [|i ? idx' ? Hlt Hrest]; subst. cbn [element block row_major].
    rewrite (nth_error_nth' _ PNone) by (rewrite map_length, seq_length; lia).
    rewrite (nth_indep _ PNone (block array ds (off + 0 * size ds))) by (rewrite map_length, seq_length; lia).
    rewrite (map_nth (fun i => block array ds (off + i * size ds)) (seq 0 d) 0%nat i).
    rewrite seq_nth by lia. cbn [Nat.add]. rewrite IH; auto.
    + f_equal. lia.
    + rewrite size_cons in Hs. nia.
Qed.

(** ** Filling *)
(** Enough values: the result has exactly the sizes [ds], and the element with
    indices (i1, ..., ik) is the value at the row-major position. *)
Theorem C48_populate : forall (array : list pyv) ds,
  ds <> [] -> (size ds <= length array)%nat ->
  exists l, populator array (map Z.of_nat ds) 0 = Ok (l, Z.of_nat (size ds)) /\
    has_sizes ds (PList l) /\
    forall idx, Forall2 lt idx ds -> element (PList l) idx = nth_error array (row_major ds idx).
Proof.
  intros array [|d ds] Hn Hs; [congruence|]. exists (subs array d ds 0). split; [|split].
  - apply (populator_block array ds d 0). right. exact Hs.
  - apply (block_sizes array (d :: ds) 0).
  - intros idx Hi. apply (block_element array (d :: ds) idx 0); auto.
Qed.
(** Too few values: IndexError. *)
Theorem C48_too_few : forall (array : list pyv) ds, ds <> [] -> (length array < size ds)%nat ->
  populator array (map Z.of_nat ds) 0 = Err EIndexError.
Proof.
  intros array [|d ds] Hn Hs; [congruence|]. apply (populator_short array ds d 0); [|exact Hs]. lia.
Qed.

(** ** Writing *)
Variable o : opts num.
Lemma seq_mul d n a : concat (map (fun i => seq (a + i * n) n) (seq 0 d)) = seq a (d * n).
Proof.
  revert a. induction d as [|d IH]; intros a; [reflexivity|].
  cbn [seq map concat Nat.mul]. rewrite Nat.add_0_r, seq_app. f_equal.
  rewrite <- (IH (a + n)%nat). rewrite <- seq_shift, map_map. f_equal. apply map_ext. intros i. f_equal. lia.
Qed.
Lemma index_subs {A} (f : nat -> pyv) (g : nat -> A) (h : pyv -> Res A) d :
  (forall i, (i < d)%nat -> h (f i) = Ok (g i)) ->
  mapR (fun i => bindR (index (PList (map f (seq 0 d))) i) h) (seq 0 d) = Ok (map g (seq 0 d)).
Proof.
  intros Hf. apply mapR_seq_ok. intros i Hi. unfold index. cbn [as_list bindR]. unfold nth_res.
  rewrite nth_error_map, (nth_error_nth' _ 0%nat), seq_nth by (rewrite ?seq_length; lia). cbn [option_map of_opt bindR].
  cbn [Nat.add]. apply Hf. lia.
Qed.
Lemma write_block array (f : nat -> str) ds : forall d off,
  (forall i, (off <= i < off + size (d :: ds))%nat -> fmt_item o (nth i array PNone) = Ok (f i)) ->
  writeLines o (PList (subs array d ds off)) (map Z.of_nat (d :: ds)) =
  Ok (map (fun r => row_line (map f (seq (off + r * last (d :: ds) 0%nat) (last (d :: ds) 0%nat))))
          (seq 0 (size (removelast (d :: ds))))).
Proof.
  induction ds as [|d' ds IH]; intros d off Hf.
  - cbn [map writeLines last removelast size fold_right seq]. unfold cat_items, range. rewrite Nat2Z.id. unfold subs.
    rewrite (index_subs _ (fun i => f (off + i)%nat)).
    + cbn [bindR map].
      assert (E : map (fun i => f (off + i)%nat) (seq 0 d) = map f (seq (off + 0 * d) d)).
      { clear. cbn [Nat.mul]. rewrite Nat.add_0_r. revert off.
        induction d as [|d IH]; intros off; [reflexivity|]. cbn [seq map]. rewrite Nat.add_0_r. f_equal.
        rewrite <- (IH (S off)). rewrite <- seq_shift, map_map. apply map_ext. intros i. f_equal. lia. }
      rewrite E. reflexivity.
    + intros i Hi. cbn [block]. rewrite size_cons in Hf. cbn [size fold_right] in *. rewrite Nat.mul_1_r in *. apply Hf. lia.
  - change (writeLines o (PList (subs array d (d' :: ds) off)) (map Z.of_nat (d :: d' :: ds))) with
      (bindR (mapR (fun i => bindR (index (PList (subs array d (d' :: ds) off)) i)
                (fun sub => writeLines o sub (map Z.of_nat (d' :: ds)))) (range (Z.of_nat d)))
             (fun lls => Ok (concat lls))).
    unfold range. rewrite Nat2Z.id. unfold subs.
    set (n := last (d' :: ds) 0%nat). set (m := size (removelast (d' :: ds))).
    assert (Esz : size (d' :: ds) = (m * n)%nat).
    { unfold m, n. clear. revert d'. induction ds as [|x ds IH]; intros d'; [cbn; lia|].
      rewrite size_cons. rewrite IH. change (removelast (d' :: x :: ds)) with (d' :: removelast (x :: ds)).
      rewrite size_cons. change (last (d' :: x :: ds) 0%nat) with (last (x :: ds) 0%nat). lia. }
    rewrite (index_subs _ (fun i => map (fun r => row_line (map f (seq ((off + i * size (d' :: ds)) + r * n) n))) (seq 0 m))).
    + cbn [bindR]. f_equal. change (last (d :: d' :: ds) 0%nat) with n.
      change (removelast (d :: d' :: ds)) with (d :: removelast (d' :: ds)). rewrite (size_cons d (removelast (d' :: ds))). fold m.
      rewrite <- (seq_mul d m 0). rewrite concat_map, map_map. f_equal. apply map_ext. intros i. rewrite Esz.
      assert (K : forall q a, map (fun r => row_line (map f (seq (off + i * (m * n) + r * n) n))) (seq a q) =
                            map (fun r => row_line (map f (seq (off + r * n) n))) (seq (i * m + a) q)).
      { induction q as [|q IHq]; intros a; [reflexivity|]. cbn [seq map]. rewrite IHq. f_equal.
        - do 3 f_equal. lia.
        - do 2 f_equal. lia. }
      specialize (K m 0%nat). rewrite Nat.add_0_r in K. cbn [Nat.add]. exact K.
    + intros i Hi. apply IH. intros j Hj. apply Hf. rewrite (size_cons d). nia.
Qed.

Lemma mapR_length {A B} (f : A -> Res B) l r : mapR f l = Ok r -> length r = length l.
Proof.
  revert r. induction l as [|x l IH]; intros r; cbn [mapR]; [intros [= <-]; reflexivity|].
  destruct (f x); cbn [bindR]; [|discriminate]. destruct (mapR f l); cbn [bindR]; [|discriminate].
  intros [= <-]. cbn [length]. f_equal. now apply IH.
Qed.
Lemma mapR_nth_ok {A B} (f : A -> Res B) l r da db i : mapR f l = Ok r -> (i < length l)%nat ->
  f (nth i l da) = Ok (nth i r db).
Proof.
  revert r i. induction l as [|x l IH]; intros r i; cbn [mapR length]; [lia|].
  destruct (f x) eqn:Ex; cbn [bindR]; [|discriminate]. destruct (mapR f l); cbn [bindR]; [|discriminate].
  intros [= <-] Hi. destruct i; [exact Ex|]. cbn [nth]. apply IH; [reflexivity|lia].
Qed.
Lemma skipn_plus {A} (l : list A) a b : skipn a (skipn b l) = skipn (a + b) l.
Proof.
  revert l. induction b as [|b IH]; intros l; [now rewrite Nat.add_0_r|].
  rewrite Nat.add_succ_r. destruct l; cbn [skipn]; [now rewrite skipn_nil|apply IH].
Qed.
Lemma map_nth_seq {A} (l : list A) x a n : (a + n <= length l)%nat -> map (fun i => nth i l x) (seq a n) = firstn n (skipn a l).
Proof.
  revert a. induction n as [|n IH]; intros a Ha; [reflexivity|]. cbn [seq map]. rewrite IH by lia.
  destruct (skipn a l) as [|y t] eqn:E.
  - apply (f_equal (@length A)) in E. rewrite skipn_length in E. cbn [length] in E. lia.
  - assert (Hy : nth a l x = y).
    { rewrite <- (firstn_skipn a l) at 1. rewrite E. rewrite app_nth2; rewrite firstn_length_le by lia; [|lia].
      now rewrite Nat.sub_diag. }
    rewrite Hy. cbn [firstn]. f_equal. f_equal.
    replace (S a) with (1 + a)%nat by lia. rewrite <- skipn_plus, E. reflexivity.
Qed.
Lemma size_last ds : ds <> [] -> size ds = (size (removelast ds) * last ds 0)%nat.
Proof.
  induction ds as [|d ds IH]; [congruence|]. intros _. destruct ds as [|d' ds]; [cbn; lia|].
  change (removelast (d :: d' :: ds)) with (d :: removelast (d' :: ds)).
  change (last (d :: d' :: ds) 0%nat) with (last (d' :: ds) 0%nat).
  rewrite (size_cons d), (size_cons d), IH by discriminate. lia.
Qed.
Lemma groups_all {A} m n (l : list A) : length l = (m * n)%nat -> concat (map (group n l) (seq 0 m)) = l.
Proof.
  revert l. induction m as [|m IH]; intros l Hl.
  - destruct l; [reflexivity|discriminate].
  - cbn [seq map concat]. unfold group at 1. cbn [Nat.mul skipn].
    rewrite <- seq_shift, map_map.
    assert (E : map (fun x => group n l (S x)) (seq 0 m) = map (group n (skipn n l)) (seq 0 m)).
    { apply map_ext. intros r. unfold group. rewrite skipn_plus. do 2 f_equal. cbn [Nat.mul]. lia. }
    rewrite E, IH; [apply firstn_skipn|]. rewrite skipn_length. cbn [Nat.mul] in Hl. lia.
Qed.

(** Whatever was filled from [array] is written, innermost dimension per line,
    as the formatted values of [array] in order. *)
Theorem C48_write : forall (array : list pyv) ds l cnt cells,
  ds <> [] ->
  populator array (map Z.of_nat ds) 0 = Ok (l, cnt) ->
  mapR (fmt_item o) (firstn (size ds) array) = Ok cells ->
  let groups := map (group (last ds 0%nat) cells) (seq 0 (size (removelast ds))) in
  writeLines o (PList l) (map Z.of_nat ds) = Ok (map row_line groups) /\ concat groups = cells.
Proof.
  intros array ds l cnt cells Hn Ep Ec groups.
  assert (Hs : (size ds <= length array)%nat).
  { destruct (Nat.leb_spec (size ds) (length array)); auto. rewrite C48_too_few in Ep by auto. discriminate. }
  pose proof (mapR_length _ _ _ Ec) as Hlen. rewrite firstn_length_le in Hlen by auto.
  split.
  2:{ apply groups_all. rewrite Hlen. now apply size_last. }
  destruct ds as [|d ds]; [congruence|].
  pose proof (populator_block array ds d 0 (or_intror Hs)) as Eb. cbn [Z.of_nat] in Eb. rewrite Ep in Eb.
  injection Eb as -> _.
  rewrite (write_block array (fun i => nth i cells [])).
  - unfold groups. rewrite map_map. f_equal. apply map_ext_in. intros r Hr. f_equal. cbn [Nat.add].
    rewrite map_nth_seq; [reflexivity|]. apply in_seq in Hr. rewrite Hlen, (size_last (d :: ds)) by auto. nia.
  - intros i Hi. cbn [Nat.add] in Hi. etransitivity; [|apply (mapR_nth_ok _ _ _ PNone [] i Ec); rewrite firstn_length_le; lia].
    f_equal. rewrite <- (firstn_skipn (size (d :: ds)) array) at 1. rewrite app_nth1; [reflexivity|].
    rewrite firstn_length_le; lia.
Qed.

(** Every nested list of these sizes arises by filling, from exactly one
    sequence of that length. *)
Fixpoint flatten (ds : list nat) (v : pyv) : list pyv :=
  match ds with
  | [] => [v]
  | _ :: rest => match v with PList l => concat (map (flatten rest) l) | _ => [] end
  end.
Lemma flatten_length ds : forall v, has_sizes ds v -> length (flatten ds v) = size ds.
Proof.
  induction ds as [|d ds IH]; intros v Hv; [reflexivity|]. destruct Hv as (l & -> & Hl & Hs).
  cbn [flatten]. rewrite size_cons. subst d. induction Hs as [|x l Hx _ IHl]; [reflexivity|].
  cbn [map concat length Nat.mul]. now rewrite app_length, IHl, IH.
Qed.
Lemma block_flatten ds : forall v a b, has_sizes ds v -> block (a ++ flatten ds v ++ b) ds (length a) = v.
Proof.
  induction ds as [|d ds IH]; intros v a b Hv.
  - cbn [block flatten]. rewrite app_nth2 by lia. now rewrite Nat.sub_diag.
  - destruct Hv as (l & -> & Hl & Hs). cbn [block flatten]. f_equal. subst d.
    revert a. induction Hs as [|x l Hx Hl' IHl]; intros a; [reflexivity|].
    cbn [map concat length seq]. rewrite Nat.add_0_r. rewrite <- app_assoc. rewrite IH by auto. f_equal.
    rewrite <- seq_shift, map_map. rewrite (app_assoc a). rewrite <- (IHl (a ++ flatten ds x)) at 2.
    apply map_ext. intros i. f_equal. rewrite app_length, flatten_length by auto. cbn [Nat.mul]. lia.
Qed.
Lemma block_inj ds : forall (a b : list pyv) off, (off + size ds <= length a)%nat -> (off + size ds <= length b)%nat ->
  block a ds off = block b ds off -> forall i, (off <= i < off + size ds)%nat -> nth i a PNone = nth i b PNone.
Proof.
  induction ds as [|d ds IH]; intros a b off Ha Hb E i Hi.
  - cbn [block size fold_right] in *. now replace i with off by lia.
  - cbn [block] in E. injection E as E. rewrite size_cons in *.
    assert (Hz : size ds <> 0%nat) by (intros Z; rewrite Z, Nat.mul_0_r in Hi; lia).
    set (k := ((i - off) / size ds)%nat).
    assert (Hk : (k < d)%nat) by (apply Nat.div_lt_upper_bound; lia).
    assert (Ek : block a ds (off + k * size ds) = block b ds (off + k * size ds)).
    { apply (f_equal (fun l => nth_error l k)) in E. rewrite !nth_error_map in E.
      rewrite (nth_error_nth' _ 0%nat), seq_nth in E by (rewrite ?seq_length; lia). cbn in E. now injection E. }
    pose proof (Nat.div_mod (i - off) (size ds) Hz) as Hdm. fold k in Hdm.
    pose proof (Nat.mod_upper_bound (i - off) (size ds) Hz) as Hmb.
    apply (IH a b (off + k * size ds)%nat); auto; nia.
Qed.
Theorem C48_onto : forall (v : pyv) ds, ds <> [] -> has_sizes ds v ->
  exists l, v = PList l /\ exists array, length array = size ds /\
    populator array (map Z.of_nat ds) 0 = Ok (l, Z.of_nat (size ds)) /\
    forall array', length array' = size ds ->
      populator array' (map Z.of_nat ds) 0 = Ok (l, Z.of_nat (size ds)) -> array' = array.
Proof.
  intros v [|d ds] Hn Hv; [congruence|]. pose proof Hv as (l & Ev & _). exists l. split; auto.
  exists (flatten (d :: ds) v). pose proof (flatten_length _ _ Hv) as Hl. split; [exact Hl|].
  assert (E0 : block (flatten (d :: ds) v) (d :: ds) 0 = PList l).
  { pose proof (block_flatten (d :: ds) v [] [] Hv) as E. cbn [app length] in E. rewrite app_nil_r in E. now rewrite E. }
  split.
  - pose proof (populator_block (flatten (d :: ds) v) ds d 0) as E. cbn [Z.of_nat Nat.add] in E. rewrite E by lia.
    change (block (flatten (d :: ds) v) (d :: ds) 0) with (PList (subs (flatten (d :: ds) v) d ds 0)) in E0.
    assert (E1 : subs (flatten (d :: ds) v) d ds 0 = l) by (injection E0; auto). rewrite E1. reflexivity.
  - intros a' Ha Ea. pose proof (populator_block a' ds d 0) as E. cbn [Z.of_nat Nat.add] in E. rewrite E in Ea by lia.
    injection Ea as Ea.
    assert (E1 : block a' (d :: ds) 0 = block (flatten (d :: ds) v) (d :: ds) 0) by (rewrite E0; cbn [block]; unfold subs in Ea; now rewrite Ea).
    apply (nth_ext _ _ PNone PNone); [lia|]. intros i Hi.
    eapply block_inj; [| |exact E1|]; cbn [Nat.add]; lia.
Qed.
End General.

(** Examples. *)
Definition seq6 : list (pyv Z) := map PNum [10; 11; 12; 13; 14; 15]%Z.
Example C48_example_fill :
  populator seq6 (map Z.of_nat [2; 3]%nat) 0 =
    Ok ([PList [PNum 10; PNum 11; PNum 12]; PList [PNum 13; PNum 14; PNum 15]]%Z, 6%Z) /\
  row_major [2; 3]%nat [1; 2]%nat = 5%nat /\
  element (PList [PList [PNum 10; PNum 11; PNum 12]; PList [PNum 13; PNum 14; PNum 15]]%Z) [1; 2]%nat = Some (PNum 15%Z) /\
  populator seq6 (map Z.of_nat [7]%nat) 0 = Err EIndexError.
Proof. repeat split; reflexivity. Qed.
Example C48_example_write : exists l,
  populator seq6 (map Z.of_nat [1; 2; 3]%nat) 0 = Ok (l, 6%Z) /\
  writeLines opts0 (PList l) (map Z.of_nat [1; 2; 3]%nat)
    = Ok [lit "10    11    12" ++ nl; lit "13    14    15" ++ nl] /\
  has_sizes [1; 2; 3]%nat (PList l).
Proof.
  eexists. split; [reflexivity|]. split; [reflexivity|].
  eexists. split; [reflexivity|]. split; [reflexivity|]. repeat constructor.
  eexists. split; [reflexivity|]. split; [reflexivity|]. repeat constructor;
  eexists; (split; [reflexivity|]; split; [reflexivity|]; repeat constructor).
Qed.

Print Assumptions C48_populate.
Print Assumptions C48_too_few.
Print Assumptions C48_write.
Print Assumptions C48_onto.
