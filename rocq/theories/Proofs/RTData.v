(** Round trip: the data section. *)
From Coq Require Import List NArith ZArith Bool Lia.
From Verif Require Import Py.Str Py.Res Py.Num Model.Dict Model.TextParser Model.CommonUtils
  Model.NAWrite Model.NARead Spec.TextSpec Spec.Records
  Proofs.StrLemmas Proofs.NumLemmas Proofs.TextLemmas Proofs.RTText Proofs.RTHead Proofs.RTRead.
Import ListNotations.

(** ** Loops *)
Lemma forR_inv {S} (f : nat -> S -> Res S) (P : nat -> S) n :
  (forall i, (i < n)%nat -> f i (P i) = Ok (P (Datatypes.S i))) -> forR (seq 0 n) f (P 0%nat) = Ok (P n).
Proof.
  intros Hf.
  assert (K : forall k a, (a + k = n)%nat -> forR (seq a k) f (P a) = Ok (P n)).
  { induction k as [|k IH]; intros a Ha; simpl.
    - f_equal. f_equal. lia.
    - rewrite Hf by lia. simpl. apply IH. lia. }
  apply K. lia.
Qed.

Section RD.
Context {num : Type} `{NumOps num}.
Variable o : opts num.
Hypothesis Hann : o_annot o = false.
Hypothesis Hd : delim_ok (o_delim o).
Variable g : num -> num.
Hypothesis Hf : fmt_law (o_fmt o) g.
Local Notation dl := (o_delim o).
Local Notation W := (W num).
Local Notation number := (number num).
Local Notation pyv := (pyv num).

Lemma modify_nth_app (a : list pyv) x b f : modify_nth (a ++ x :: b) (length a) f =
  bindR (f x) (fun y => Ok (a ++ y :: b)).
Proof.
  induction a as [|y a IH]; simpl; [destruct (f x); reflexivity|].
  rewrite IH. destruct (f x); reflexivity.
Qed.

(** Item [i] of the list is changed from [L[i]] to [L'[i]] by step [i]. *)
Lemma forR_cols (body : nat -> list pyv -> Res (list pyv)) (L L' : list pyv) :
  length L = length L' ->
  (forall i a b, length a = i -> (i < length L)%nat ->
     body i (a ++ nth i L PNone :: b) = Ok (a ++ nth i L' PNone :: b)) ->
  forR (seq 0 (length L)) body L = Ok L'.
Proof.
  intros Hl Hb.
  assert (SK : forall (l : list pyv) i, (i < length l)%nat -> skipn i l = nth i l PNone :: skipn (S i) l).
  { induction l as [|x l IH]; intros i Hi; simpl in Hi; [lia|]. destruct i; simpl; auto. apply IH. lia. }
  assert (FN : forall (l : list pyv) i, (i < length l)%nat -> firstn (S i) l = firstn i l ++ [nth i l PNone]).
  { induction l as [|x l IH]; intros i Hi; simpl in Hi; [lia|]. destruct i; simpl; auto. f_equal. apply IH. lia. }
  pose proof (forR_inv body (fun i => firstn i L' ++ skipn i L) (length L)) as K.
  cbv beta in K. rewrite firstn_O, skipn_O in K. cbn [app] in K.
  rewrite K.
  - rewrite skipn_all, app_nil_r, Hl, firstn_all. reflexivity.
  - intros i Hi. rewrite (SK L i Hi), Hb; auto.
    + rewrite (FN L') by lia. now rewrite <- app_assoc.
    + rewrite firstn_length. lia.
Qed.

(** ** Numbers in the data section *)
Definition d_of (n : number) : str := o_fmt o (val n).
Lemma fmt_f_pv n : fmt_f (o_fmt o) (pv n) = Ok (d_of n).
Proof. destruct n; reflexivity. Qed.
Lemma fmt_item_pv n : fmt_item o (pv n) = Ok (d_of n ++ dl).
Proof. unfold fmt_item. now rewrite fmt_f_pv. Qed.
Lemma d_of_token n : token_ok (d_of n).
Proof. apply Hf. Qed.
Lemma d_of_tokens l : Forall token_ok (map d_of l).
Proof. apply Forall_map, Forall_forall. intros n _. apply d_of_token. Qed.
Lemma conv_d_ofs l : mapR (conv TFloat) (map d_of l) = Ok (map pv (map (data_num g) l)).
Proof.
  apply mapR_forall2. induction l as [|n l IH]; simpl; constructor; auto.
  unfold d_of. destruct (Hf (val n)) as [_ ->]. reflexivity.
Qed.

Definition cells (ns : list number) : str := concat (map (fun t => t ++ dl) (map d_of ns)).
Definition row (ns : list number) : str := row_line dl (map d_of ns).
Lemma cells_app a b : cells (a ++ b) = cells a ++ cells b.
Proof. unfold cells. now rewrite !map_app, concat_app. Qed.
Lemma row_ok ns : one_line (row ns).
Proof. apply row_one_line; auto using d_of_tokens. Qed.
Lemma toks_row_nl ns : toks (row ns ++ nl) = map d_of ns.
Proof. apply toks_row; auto using d_of_tokens, blank_nl. Qed.

(** A line of the data section: not blank, no line break. *)
Definition solid (l : str) : Prop := one_line l /\ all_sp l = false.
Lemma toks_solid l : one_line l -> toks (l ++ nl) <> [] -> solid l.
Proof.
  intros Ho Ht. split; auto. destruct (all_sp l) eqn:E; auto. exfalso. apply Ht.
  unfold toks. rewrite right_strip_id.
  - rewrite split_ws_trail by reflexivity. now apply split_ws_all_sp.
  - apply mem_chr_false. rewrite in_app_iff. intros [K|[K|[]]]; [|discriminate].
    revert K. apply blank_no; [now apply blank_all_sp|reflexivity].
Qed.
Lemma row_solid ns : ns <> [] -> solid (row ns).
Proof.
  intros Hn. apply toks_solid; [apply row_ok|]. rewrite toks_row_nl. destruct ns; [congruence|discriminate].
Qed.

Lemma items_row ns n rest : ns <> [] -> n = Z.of_nat (length ns) ->
  items_from (nls [row ns] ++ rest) n TFloat = Ok (map pv (map (data_num g) ns), rest).
Proof.
  intros Hn Hl. unfold items_from.
  rewrite (readUnknown_exact (num:=num) EIndexError n TFloat (nls [row ns]) rest (map d_of ns)).
  - now rewrite conv_d_ofs.
  - discriminate.
  - cbn [nls map last]. rewrite toks_row_nl. destruct ns; [congruence|discriminate].
  - cbn [nls map concat]. now rewrite toks_row_nl, app_nil_r.
  - now rewrite map_length.
Qed.
(** several rows *)
Lemma items_rows nss n rest : nss <> [] -> Forall (fun ns => ns <> []) nss ->
  n = Z.of_nat (length (concat nss)) ->
  items_from (nls (map row nss) ++ rest) n TFloat = Ok (map pv (map (data_num g) (concat nss)), rest).
Proof.
  intros Hn Hne Hl. unfold items_from.
  rewrite (readUnknown_exact (num:=num) EIndexError n TFloat (nls (map row nss)) rest (map d_of (concat nss))).
  - now rewrite conv_d_ofs.
  - destruct nss; [congruence|discriminate].
  - destruct nss as [|ns nss _] using rev_ind; [congruence|]. rewrite map_app, nls_app. cbn [nls map].
    rewrite last_last, toks_row_nl. apply Forall_app in Hne as [_ Hne]. inversion Hne; subst.
    destruct ns; [congruence|discriminate].
  - unfold nls. rewrite !map_map. rewrite concat_map. f_equal. apply map_ext. intros ns. apply toks_row_nl.
  - now rewrite map_length.
Qed.

(** ** Writing *)
Definition emitd (m : W unit) (d : na num) (L : list str) : Prop :=
  forall f h, m (mkW f h d) = (Ok tt, mkW (f ++ unlines L) h d).
Lemma emitd_bind m k d L L2 : emitd m d L -> emitd k d L2 -> emitd (bindW m (fun _ => k)) d (L ++ L2).
Proof. intros H1 H2 f h. unfold bindW. now rewrite H1, H2, unlines_app, app_assoc. Qed.
Lemma emitd_for {A} (l : list A) (k : A -> W unit) d (L : A -> list str) :
  (forall x, In x l -> emitd (k x) d (L x)) -> emitd (forW l k) d (concat (map L l)).
Proof.
  induction l as [|x l IH]; intros Hk.
  - intros f h. simpl. now rewrite app_nil_r.
  - simpl. apply emitd_bind; [apply Hk; now left|]. apply IH. intros y Hy. apply Hk. now right.
Qed.
Lemma emitd_line ns d : emitd (write_data_line o (cells ns)) d [row ns].
Proof.
  intros f h. unfold write_data_line, bindW, wrapLine, liftW. rewrite wrap_plain by auto.
  unfold fwrite. simpl. now rewrite unlines_one.
Qed.
Lemma cat_items_ok {A} (l : list A) (f : A -> Res pyv) (k : A -> number) :
  (forall x, In x l -> f x = Ok (pv (k x))) -> cat_items o l f = Ok (cells (map k l)).
Proof.
  intros Hk. unfold cat_items, cells.
  rewrite (mapR_ok _ (fun x => d_of (k x) ++ dl)).
  - simpl. rewrite !map_map. reflexivity.
  - intros x Hi. rewrite Hk by auto. simpl. apply fmt_item_pv.
Qed.
Lemma wself_ok k v (d : na num) f h : attr d k = v -> self k (mkW f h d) = (Ok v, mkW f h d).
Proof. intros <-. reflexivity. Qed.
Lemma emitd_self k v (c : pyv -> W unit) d L : attr d k = v -> emitd (c v) d L -> emitd (bindW (self k) c) d L.
Proof. intros E Hc f h. unfold bindW. rewrite (wself_ok k v) by auto. apply Hc. Qed.
Lemma emitd_self_int k z (c : Z -> W unit) d L : attr d k = PInt z -> emitd (c z) d L -> emitd (bindW (self_int k) c) d L.
Proof. intros E Hc f h. unfold bindW. rewrite (self_int_ok k z) by auto. apply Hc. Qed.
Lemma emitd_self_list k l (c : list pyv -> W unit) d L : attr d k = PList l -> emitd (c l) d L -> emitd (bindW (self_list k) c) d L.
Proof. intros E Hc f h. unfold bindW. rewrite (self_list_ok k l) by auto. apply Hc. Qed.
Lemma emitd_lift {A} (r : Res A) a (c : A -> W unit) d L : r = Ok a -> emitd (c a) d L -> emitd (bindW (liftW r) c) d L.
Proof. intros -> Hc f h. apply Hc. Qed.

(** ** Columns *)
Definition at_ (m : nat) (c : list number) : number := nth m c (NI 0).
Definition col (m : nat) (cs : list (list number)) : list number := map (at_ m) cs.

Lemma index_nums c m : (m < length c)%nat -> index (nums_pv c) m = Ok (pv (at_ m c)).
Proof.
  intros Hm. unfold index, nums_pv, nth_res. simpl. rewrite nth_error_map.
  rewrite (nth_error_nth' c (NI 0)) by auto. reflexivity.
Qed.
Lemma index_map {A} (p : A -> pyv) (l : list A) m x : nth_error l m = Some x ->
  index (PList (map p l)) m = Ok (p x).
Proof. intros E. unfold index, nth_res. simpl. now rewrite nth_error_map, E. Qed.
Lemma index2_cols cs n m : (n < length cs)%nat -> Forall (fun c => m < length c)%nat cs ->
  index2 (PList (map nums_pv cs)) n m = Ok (pv (at_ m (nth n cs []))).
Proof.
  intros Hn Hc. unfold index2. rewrite (index_map nums_pv cs n (nth n cs [])) by (now apply nth_error_nth').
  simpl bindR. apply index_nums. rewrite Forall_forall in Hc. apply Hc, nth_In, Hn.
Qed.
Lemma col_seq cs m : map (fun n => at_ m (nth n cs [])) (seq 0 (length cs)) = col m cs.
Proof.
  unfold col. rewrite <- (map_map (fun n => nth n cs []) (at_ m)). f_equal.
  induction cs as [|c cs IH]; simpl; [reflexivity|]. f_equal. rewrite <- seq_shift, map_map. exact IH.
Qed.
Lemma cat_cols cs m : Forall (fun c => m < length c)%nat cs ->
  cat_items o (range (Z.of_nat (length cs))) (fun n => index2 (PList (map nums_pv cs)) n m) = Ok (cells (col m cs)).
Proof.
  intros Hc. rewrite <- (col_seq cs m). unfold range. rewrite Nat2Z.id. apply cat_items_ok.
  intros n Hn. apply in_seq in Hn. apply index2_cols; auto. lia.
Qed.
Lemma emitd_x_aux x X cs m d : X = Ok (pv x) ->
  attr d kNAUXV = PInt (Z.of_nat (length cs)) -> attr d kA = PList (map nums_pv cs) ->
  Forall (fun c => m < length c)%nat cs ->
  emitd (write_x_aux o X m) d [row (x :: col m cs)].
Proof.
  intros Hx H1 H2 Hc. unfold write_x_aux.
  eapply emitd_lift; [apply (cat_items_ok [tt] _ (fun _ => x)); auto|].
  eapply emitd_self_int; [eassumption|]. eapply emitd_self; [eassumption|].
  eapply emitd_lift; [apply cat_cols; auto|].
  rewrite <- cells_app. apply emitd_line.
Qed.

(** What has been read after [m] marks. *)
Definition pre (m : nat) (cs : list (list number)) : list pyv :=
  map (fun c => nums_pv (firstn m c)) cs.
Lemma firstn_at (c : list number) m : (m < length c)%nat -> firstn (S m) c = firstn m c ++ [at_ m c].
Proof.
  revert m. induction c as [|x c IH]; intros m Hm; simpl in Hm; [lia|]. destruct m; simpl; auto.
  f_equal. apply IH. lia.
Qed.
Lemma nth_map_lt {A B} (f : A -> B) (l : list A) i dA dB : (i < length l)%nat -> nth i (map f l) dB = f (nth i l dA).
Proof. intros Hi. rewrite (nth_indep _ dB (f dA)) by now rewrite map_length. apply map_nth. Qed.
Lemma nth_res_map {A} (p : A -> pyv) (l : list A) m x : nth_error l m = Some x -> nth_res (map p l) m = Ok (p x).
Proof. intros E. unfold nth_res. now rewrite nth_error_map, E. Qed.
Lemma append_each_ok cs m : Forall (fun c => m < length c)%nat cs ->
  append_each (Z.of_nat (length cs)) (map pv (col m cs)) (pre m cs) = Ok (pre (S m) cs).
Proof.
  intros Hc. unfold append_each, range. rewrite Nat2Z.id.
  replace (length cs) with (length (pre m cs)) by (unfold pre; now rewrite map_length).
  apply forR_cols; [unfold pre; now rewrite !map_length|].
  intros i a b Ha Hi. unfold pre in Hi |- *. rewrite map_length in Hi.
  rewrite (nth_res_map pv (col m cs) i (at_ m (nth i cs []))).
  2:{ unfold col. rewrite nth_error_map, (nth_error_nth' cs []) by auto. reflexivity. }
  cbn [bindR]. rewrite <- Ha at 2. rewrite modify_nth_app.
  rewrite (nth_map_lt _ cs i []), (nth_map_lt _ cs i []) by auto. unfold nums_pv at 1. cbn [app_item bindR].
  rewrite firstn_at by (rewrite Forall_forall in Hc; apply Hc, nth_In; auto).
  unfold nums_pv. now rewrite map_app.
Qed.
Lemma pre_O cs : pre 0 cs = repeat (PList []) (length cs).
Proof. unfold pre. induction cs as [|c cs IH]; simpl; [reflexivity|]. f_equal. exact IH. Qed.
Lemma pre_all cs m : Forall (fun c => length c = m) cs -> pre m cs = map nums_pv cs.
Proof.
  intros Hc. unfold pre. apply map_ext_in. intros c Hi. rewrite Forall_forall in Hc. rewrite <- (Hc c Hi).
  now rewrite firstn_all.
Qed.

(** normalised columns *)
Local Notation dn := (data_num g).
Lemma at_map m c : (m < length c)%nat -> at_ m (map dn c) = dn (at_ m c).
Proof. intros Hm. unfold at_. now apply nth_map_lt. Qed.
Lemma col_map m cs : Forall (fun c => m < length c)%nat cs -> col m (map (map dn) cs) = map dn (col m cs).
Proof.
  intros Hc. unfold col. rewrite !map_map. apply map_ext_in. intros c Hi. rewrite Forall_forall in Hc.
  apply at_map. now apply Hc.
Qed.
Lemma lens_map m cs : Forall (fun c => m < length c)%nat cs -> Forall (fun c => m < length c)%nat (map (map dn) cs).
Proof. intros Hc. apply Forall_map. eapply Forall_impl; [|exact Hc]. intros c. now rewrite map_length. Qed.
Lemma lens_lt m n cs : Forall (fun c : list number => length c = n) cs -> (m < n)%nat -> Forall (fun c => m < length c)%nat cs.
Proof. intros Hc Hm. eapply Forall_impl; [|exact Hc]. intros c ->. exact Hm. Qed.

(** ** The reading loop *)
Lemma checkBlank_solid ls : Forall solid ls -> checkForBlankLines false (nls ls) = Ok (nls ls).
Proof.
  induction 1 as [|l ls [_ Hl] Hls IH]; [reflexivity|]. rewrite nls_cons. cbn [checkForBlankLines].
  rewrite strip_app_sp by reflexivity.
  replace (is_nil (strip l)) with false.
  - now rewrite IH.
  - symmetry. apply is_nil_false. intros K. apply strip_nil_iff in K. congruence.
Qed.

Lemma data_loop_blocks h c (block : nat -> list str) (S0 : nat -> dst) M :
  (forall m rest, (m < M)%nat -> block m <> [] /\ exists s1 ls1,
     readData1 h c (nls (block m) ++ rest) m (S0 m) = Ok (s1, ls1) /\
     readData2 h c ls1 m s1 = Ok (S0 (S m), rest)) ->
  forall fuel, (M <= fuel)%nat ->
  data_loop h c fuel (nls (concat (map block (seq 0 M)))) 0 (S0 0%nat) = Ok (S0 M).
Proof.
  intros Hb.
  assert (K : forall k a fuel, (a + k = M)%nat -> (k <= fuel)%nat ->
    data_loop h c fuel (nls (concat (map block (seq a k)))) a (S0 a) = Ok (S0 M)).
  { induction k as [|k IH]; intros a fuel Ha Hk; cbn [seq map concat].
    - replace a with M by lia. now destruct fuel.
    - destruct fuel as [|fuel]; [lia|]. rewrite nls_app.
      destruct (Hb a (nls (concat (map block (seq (S a) k)))) ltac:(lia)) as (Hne & s1 & ls1 & H1 & H2).
      destruct (nls (block a) ++ nls (concat (map block (seq (S a) k)))) eqn:E.
      + destruct (block a); [congruence|discriminate].
      + cbn [data_loop]. rewrite H1. cbn [bindR fst snd]. rewrite H2. cbn [bindR fst snd]. apply IH; lia. }
  intros fuel Hk. apply K; lia.
Qed.

Lemma skipn_app_len {A} (a b : list A) : skipn (length a) (a ++ b) = b.
Proof. induction a; simpl; auto. Qed.
Lemma readData_blocks h c hdr (block : nat -> list str) (S0 : nat -> dst) M :
  Forall one_line hdr -> attr h kNLHEAD = PInt (Z.of_nat (length hdr)) -> setupArrays h c = Ok (S0 0%nat) ->
  (forall m, (m < M)%nat -> block m <> [] /\ Forall solid (block m)) ->
  (forall m rest, (m < M)%nat -> exists s1 ls1,
     readData1 h c (nls (block m) ++ rest) m (S0 m) = Ok (s1, ls1) /\
     readData2 h c ls1 m s1 = Ok (S0 (S m), rest)) ->
  readData h c (unlines (hdr ++ concat (map block (seq 0 M)))) = Ok (store h c (S0 M)).
Proof.
  intros Hh Hn Hset Hblk Hstep. unfold readData. rewrite Hset. cbn [bindR]. unfold h_int. rewrite Hn.
  cbn [as_int bindR].
  assert (Hso : Forall solid (concat (map block (seq 0 M)))).
  { apply Forall_forall. intros l Hi. apply in_concat in Hi as (b & Hi & Hl).
    apply in_map_iff in Hi as (m & <- & Hi). apply in_seq in Hi.
    destruct (Hblk m ltac:(lia)) as [_ K]. rewrite Forall_forall in K. now apply K. }
  rewrite readlines_file.
  2:{ apply Forall_app. split; auto. eapply Forall_impl; [|exact Hso]. intros l K. apply K. }
  rewrite nls_app, slice_from_nat.
  replace (length hdr) with (length (nls hdr)) by apply map_length.
  rewrite skipn_app_len, checkBlank_solid by auto. cbn [bindR].
  rewrite (data_loop_blocks h c block S0 M); [reflexivity| |].
  - intros m rest Hm. split; [now apply Hblk|now apply Hstep].
  - unfold nls. rewrite map_length. clear - Hblk.
    assert (K : forall k a, (a + k <= M)%nat -> (k <= length (concat (map block (seq a k))))%nat).
    { induction k as [|k IH]; intros a Ha; cbn [seq map concat]; [lia|]. rewrite app_length.
      destruct (Hblk a ltac:(lia)) as [Hne _]. specialize (IH (S a) ltac:(lia)).
      destruct (block a); [congruence|]. simpl. lia. }
    apply (K M 0%nat). lia.
Qed.
Lemma rows_one_line (block : nat -> list str) M :
  (forall m, (m < M)%nat -> block m <> [] /\ Forall solid (block m)) ->
  Forall one_line (concat (map block (seq 0 M))).
Proof.
  intros Hblk. apply Forall_forall. intros l Hi. apply in_concat in Hi as (b & Hi & Hl).
  apply in_map_iff in Hi as (m & <- & Hi). apply in_seq in Hi.
  destruct (Hblk m ltac:(lia)) as [_ K]. rewrite Forall_forall in K. now apply K.
Qed.
End RD.
