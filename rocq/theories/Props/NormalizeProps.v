(** C55 and C57: expansion of abbreviated axes. *)
From Coq Require Import List NArith ZArith QArith Bool Lia Floats.SpecFloat.
From Verif Require Import Py.Str Py.Res Py.Num Py.Arith Model.Dict Model.TextParser Model.CommonUtils Model.NARead Model.Normalize Spec.ReadSpec Props.ReadProps
  Spec.NormalizeSpec Spec.WholeNum Spec.Binary64 Spec.Samples.
Import ListNotations.

Section Lemmas.
Context {num : Type} `{NumOps num} `{ArithOps num}.
Local Notation pyv := (pyv num).
Local Notation na := (na num).

Lemma extend_spec : forall fuel x count nx dx x', (count < length x)%nat ->
  extend fuel x count nx dx = Ok x' -> length x = S count ->
  (forall k v, nth_error x (S k) = Some v -> exists u d, nth_error x k = Some u /\ dx = Ok d /\ pv_add u d = Ok v) ->
  hd_error x' = hd_error x /\ length x' = Nat.max (length x) (Z.to_nat nx) /\
  (forall k v, nth_error x' (S k) = Some v -> exists u d, nth_error x' k = Some u /\ dx = Ok d /\ pv_add u d = Ok v).
Proof.
  induction fuel as [|fuel IH]; intros x count nx dx x' Hc E Hl Hx; cbn [extend] in E;
    destruct (Z.ltb_spec (Z.of_nat (length x)) nx) as [L|L]; try discriminate;
    try (injection E as <-; split; [reflexivity|split; [lia|exact Hx]]).
  unfold nth_res in E. destruct (nth_error x count) as [v|] eqn:Ev; cbn [of_opt bindR] in E; [|discriminate].
  destruct dx as [dv|e] eqn:Ed; cbn [bindR] in E; [|discriminate].
  destruct (pv_add v dv) as [w|e] eqn:Ew; cbn [bindR] in E; [|discriminate].
  apply IH in E.
  - destruct E as (E1 & E2 & E3). split; [|split].
    + rewrite E1. destruct x; [cbn in Hc; lia|reflexivity].
    + rewrite E2, app_length. cbn [length]. lia.
    + exact E3.
  - rewrite app_length. cbn [length]. lia.
  - rewrite app_length, Hl. cbn [length]. lia.
  - intros k u Hk. destruct (Nat.lt_ge_cases (S k) (length x)) as [Lk|Lk].
    + rewrite nth_error_app1 in Hk by lia. destruct (Hx k u Hk) as (u0 & d & A & B & C).
      exists u0, d. rewrite nth_error_app1 by lia. auto.
    + assert (S k = length x).
      { assert (S k < length (x ++ [w]))%nat by (apply nth_error_Some; congruence). rewrite app_length in H1. cbn [length] in H1. lia. }
      rewrite H1, nth_error_app2, Nat.sub_diag in Hk by lia. injection Hk as <-.
      exists v, dv. assert (k = count) by lia. subst k. rewrite nth_error_app1 by lia. auto.
Qed.
(** [firstn 1 x] leads to the same list as [firstn 1] of the result. *)
Lemma extend_hd fuel x count nx dx x' : extend fuel x count nx dx = Ok x' -> firstn (length x) x' = x.
Proof.
  revert x count. induction fuel as [|fuel IH]; intros x count E; cbn [extend] in E;
    destruct (Z.ltb_spec (Z.of_nat (length x)) nx) as [L|L]; try discriminate; try (injection E as <-; apply firstn_all).
  destruct (nth_res x count) as [v|]; cbn [bindR] in E; [|discriminate].
  destruct dx as [dv|]; cbn [bindR] in E; [|discriminate].
  destruct (pv_add v dv) as [w|]; cbn [bindR] in E; [|discriminate].
  apply IH in E. rewrite app_length in E. cbn [length] in E.
  assert (K : firstn (length x) (firstn (length x + 1) x') = firstn (length x) (x ++ [w])) by now rewrite E.
  rewrite firstn_firstn, Nat.min_l in K by lia. rewrite firstn_app, Nat.sub_diag, firstn_all in K. cbn in K.
  now rewrite app_nil_r in K.
Qed.

Lemma modify_nth_spec (l : list pyv) i f l' : modify_nth l i f = Ok l' ->
  length l' = length l /\ (exists v v', nth_error l i = Some v /\ nth_error l' i = Some v' /\ f v = Ok v') /\
  forall j, j <> i -> nth_error l' j = nth_error l j.
Proof.
  revert i l'. induction l as [|v l IH]; intros i l' E; destruct i; cbn [modify_nth] in E; try discriminate.
  - destruct (f v) as [v'|] eqn:Ef; cbn [bindR] in E; [|discriminate]. injection E as <-.
    split; [reflexivity|]. split; [exists v, v'; auto|]. intros [|j] Hj; [congruence|reflexivity].
  - destruct (modify_nth l i f) as [l1|] eqn:E1; cbn [bindR] in E; [|discriminate]. injection E as <-.
    destruct (IH _ _ E1) as (A & B & C). split; [cbn; congruence|]. split; [exact B|].
    intros [|j] Hj; [reflexivity|]. cbn. apply C. congruence.
Qed.
Lemma modify_nth_same (l : list pyv) i f v : nth_error l i = Some v -> f v = Ok v -> modify_nth l i f = Ok l.
Proof.
  revert i. induction l as [|w l IH]; intros [|i] E F; try discriminate; cbn [modify_nth].
  - injection E as <-. rewrite F. reflexivity.
  - cbn in E. rewrite (IH _ E F). reflexivity.
Qed.
Lemma index_list (l : list pyv) i : index (PList l) i = nth_res l i.
Proof. reflexivity. Qed.

(** What one step does to its axis. *)
Definition axis_done (d d' : na) (i : nat) : Prop :=
  exists nxdef nx, index (attr d kNXDEF) i = Ok (PInt nxdef) /\ index (attr d kNX) i = Ok (PInt nx) /\
    (nxdef = nx -> index (attr d' kX) (S i) = index (attr d kX) (S i)) /\
    (nxdef <> nx -> exists x x', index (attr d kX) (S i) = Ok (PList x) /\ index (attr d' kX) (S i) = Ok (PList x') /\
       extend (Z.to_nat nx) (firstn 1 x) 0 nx (index (attr d kDX) (S i)) = Ok x').

Lemma attr_upd (d : na) k v : attr (upd d k v) k = v.
Proof. unfold attr, upd. assert (E : key_beq k k = true) by (destruct k; reflexivity). now rewrite E. Qed.
Lemma attr_upd_other (d : na) k k' v : k <> k' -> attr (upd d k v) k' = attr d k'.
Proof.
  intros Hk. unfold attr, upd. destruct (key_beq k k') eqn:E; [|reflexivity]. apply internal_key_dec_bl in E. congruence.
Qed.

Lemma normalize_axis_spec i d d' : normalize_axis i d = Ok d' ->
  axis_done d d' i /\ (forall k, k <> kX -> d' k = d k) /\
  (forall j, j <> S i -> index (attr d' kX) j = index (attr d kX) j).
Proof.
  unfold normalize_axis. intros E.
  destruct (index (attr d kNXDEF) i) as [a|] eqn:Ea; cbn [bindR] in E; [|discriminate].
  destruct (index (attr d kNX) i) as [b|] eqn:Eb; cbn [bindR] in E; [|discriminate].
  destruct a as [|za| | |]; try discriminate. destruct b as [|zb| | |]; try discriminate. cbn [int_eq bindR as_int] in E.
  destruct (Z.eqb_spec za zb) as [L|L]; cbn [bindR] in E.
  { injection E as <-. split; [|split; [reflexivity|reflexivity]].
    exists za, zb. split; [exact Ea|]. split; [exact Eb|]. split; [reflexivity|congruence]. }
  destruct (attr d kX) as [| | | |xs] eqn:EX; try discriminate. cbn [modify_in] in E.
  destruct (modify_nth xs (S i) _) as [xs'|] eqn:Em in E; cbn [bindR] in E; [|discriminate].
  injection E as <-. destruct (modify_nth_spec _ _ _ _ Em) as (Hl & (v & v' & A & B & C) & D).
  rewrite attr_upd. split; [|split].
  - exists za, zb. split; [exact Ea|]. split; [exact Eb|]. split; [congruence|]. intros _.
    destruct v as [| | | |x]; try discriminate.
    destruct (extend _ _ _ _ _) as [x'|] eqn:Ex in C; cbn [bindR] in C; [|discriminate]. injection C as <-.
    exists x, x'. rewrite EX, attr_upd, !index_list. unfold nth_res. rewrite A, B. auto.
  - intros k Hk. unfold upd. destruct (key_beq kX k) eqn:K; [|reflexivity]. apply internal_key_dec_bl in K. congruence.
  - intros j Hj. rewrite !index_list. unfold nth_res. now rewrite D.
Qed.
Lemma axis_done_frame d0 d1 d d' i : axis_done d d' i ->
  attr d0 kNXDEF = attr d kNXDEF -> attr d0 kNX = attr d kNX -> attr d0 kDX = attr d kDX ->
  index (attr d0 kX) (S i) = index (attr d kX) (S i) -> index (attr d1 kX) (S i) = index (attr d' kX) (S i) ->
  axis_done d0 d1 i.
Proof.
  intros (a & b & A & B & C & D) E1 E2 E3 E4 E5. exists a, b. rewrite E1, E2, E3, E4, E5. auto.
Qed.

Lemma normalize_loop n : forall a d d', forR (seq a n) normalize_axis d = Ok d' ->
  (forall i, (a <= i < a + n)%nat -> axis_done d d' i) /\ (forall k, k <> kX -> d' k = d k) /\
  (forall j, (j = 0 \/ j <= a \/ a + n < j)%nat -> index (attr d' kX) j = index (attr d kX) j).
Proof.
  induction n as [|n IH]; intros a d d' E; cbn [seq forR] in E.
  - injection E as <-. split; [lia|]. split; reflexivity.
  - destruct (normalize_axis a d) as [d1|] eqn:E1; cbn [bindR] in E; [|discriminate].
    destruct (normalize_axis_spec _ _ _ E1) as (A & B & C). destruct (IH _ _ _ E) as (A' & B' & C').
    assert (At : forall k, k <> kX -> attr d1 k = attr d k) by (intros k Hk; unfold attr; now rewrite B).
    split; [|split].
    + intros i Hi. destruct (Nat.eq_dec i a) as [->|Hia].
      * eapply axis_done_frame; [exact A|reflexivity..|]. rewrite C' by lia. reflexivity.
      * eapply axis_done_frame; [apply A'; lia|symmetry; apply At; discriminate..| |reflexivity]. rewrite C by lia. reflexivity.
    + intros k Hk. rewrite B', B; auto.
    + intros j Hj. rewrite C', C by lia. reflexivity.
Qed.

(** A finished axis is a fixed point. *)
Lemma normalize_axis_fix d0 d i : axis_done d0 d i ->
  attr d0 kNXDEF = attr d kNXDEF -> attr d0 kNX = attr d kNX -> attr d0 kDX = attr d kDX ->
  exists d', normalize_axis i d = Ok d' /\ forall k, d' k = d k.
Proof.
  intros (a & b & A & B & C & D) E1 E2 E3. unfold normalize_axis. rewrite <- E1, <- E2, <- E3, A, B. cbn [bindR int_eq as_int].
  destruct (Z.eqb_spec a b) as [L|L]; cbn [bindR].
  { exists d. auto. }
  destruct (D L) as (x & x' & X1 & X2 & X3).
  destruct (attr d kX) as [| | | |xs] eqn:EX; try discriminate.
  { unfold index in X2. cbn [as_list bindR] in X2. unfold nth_res in X2.
    destruct (nth_error (map (fun c => PStr [c]) s) (S i)) as [w|] eqn:K; cbn [of_opt] in X2; [|discriminate].
    injection X2 as ->. apply nth_error_In, in_map_iff in K as (c & K & _). discriminate. }
  cbn [modify_in]. rewrite index_list in X2. unfold nth_res in X2.
  destruct (nth_error xs (S i)) as [w|] eqn:K; cbn [of_opt] in X2; [|discriminate]. injection X2 as ->.
  rewrite (modify_nth_same _ _ _ _ K).
  - cbn [bindR]. exists (upd d kX (PList xs)). split; [reflexivity|].
    intros k. unfold upd. destruct (key_beq kX k) eqn:Kk; [|reflexivity]. apply internal_key_dec_bl in Kk. subst k.
    unfold attr in EX. destruct (d kX) as [w|]; [congruence|discriminate].
  - assert (F : firstn 1 x' = firstn 1 x).
    { pose proof (extend_hd _ _ _ _ _ _ X3) as F. destruct x as [|x0 x].
      - cbn [firstn] in X3 |- *. destruct (Z.to_nat b) eqn:Eb; cbn [extend length] in X3.
        + destruct (Z.ltb_spec (Z.of_nat 0) b); try discriminate. injection X3 as <-. reflexivity.
        + destruct (Z.ltb_spec (Z.of_nat 0) b); [|lia]. discriminate.
      - exact F. }
    rewrite F, X3. reflexivity.
Qed.
Lemma forR_fix n d0 d : (forall i, (i < n)%nat -> axis_done d0 d i) -> (forall k, k <> kX -> d k = d0 k) ->
  forall a, (a <= n)%nat -> forall e, (forall k, e k = d k) ->
  exists d', forR (seq (n - a) a) normalize_axis e = Ok d' /\ forall k, d' k = d k.
Proof.
  intros Hd Hf. induction a as [|a IH]; intros Ha e He.
  - exists e. auto.
  - replace (seq (n - S a) (S a)) with ((n - S a)%nat :: seq (n - a) a) by (cbn [seq]; do 2 f_equal; lia). cbn [forR].
    assert (At : forall k, attr e k = attr d k) by (intros k; unfold attr; now rewrite He).
    assert (At0 : forall k, k <> kX -> attr d0 k = attr d k) by (intros k Hk; unfold attr; now rewrite Hf).
    destruct (normalize_axis_fix d0 e (n - S a)) as (d1 & E1 & F1).
    + eapply axis_done_frame; [apply Hd; lia|reflexivity..|]. now rewrite At.
    + rewrite At. apply At0. discriminate.
    + rewrite At. apply At0. discriminate.
    + rewrite At. apply At0. discriminate.
    + rewrite E1. cbn [bindR]. apply IH; [lia|]. intros k. rewrite F1. apply He.
Qed.
End Lemmas.

(** * C55 *)
(** Missing: a listed axis (NXDEF = NX) is kept as it is, also when the file
    lists more values than NX; with NX < 1 one value is left. *)
Theorem C55_expanded_partial : forall num (Num : NumOps num) (Ar : ArithOps num) (d d' : na num) niv,
  attr d kNIV = PInt niv -> normalizeIndVars_2010 d = Ok d' ->
  (forall k, k <> kX -> d' k = d k) /\ index (attr d' kX) 0 = index (attr d kX) 0 /\
  forall i, (Z.of_nat i < niv - 1)%Z -> exists nxdef nx,
    index (attr d kNXDEF) i = Ok (PInt nxdef) /\ index (attr d kNX) i = Ok (PInt nx) /\
    (nxdef = nx -> index (attr d' kX) (S i) = index (attr d kX) (S i)) /\
    (nxdef <> nx -> (1 <= nx)%Z -> exists x x',
       index (attr d kX) (S i) = Ok (PList x) /\ index (attr d' kX) (S i) = Ok (PList x') /\
       Z.of_nat (length x') = nx /\
       forall dx, index (attr d kDX) (S i) = Ok dx -> goes_on dx x x').
Proof.
  intros num Num Ar d d' niv Hn E. unfold normalizeIndVars_2010 in E. rewrite Hn in E. cbn [as_int bindR] in E.
  unfold range in E. destruct (normalize_loop _ _ _ _ E) as (A & B & C). split; [exact B|]. split; [apply C; auto|].
  intros i Hi. destruct (A i) as (a & b & A1 & A2 & A3 & A4); [lia|]. exists a, b. split; [exact A1|]. split; [exact A2|].
  split; [exact A3|]. intros Hab Hb. destruct (A4 Hab) as (x & x' & X1 & X2 & X3). exists x, x'. split; [exact X1|].
  split; [exact X2|].
  destruct x as [|x0 x].
  { cbn [firstn] in X3. destruct (Z.to_nat b) eqn:Eb; cbn [extend length] in X3; (destruct (Z.ltb_spec (Z.of_nat 0) b); [|lia]); discriminate. }
  cbn [firstn] in X3. apply extend_spec in X3; cbn [length]; try lia.
  - destruct X3 as (Y1 & Y2 & Y3). split; [rewrite Y2; cbn [length]; lia|]. intros dx Hdx. split; [exact Y1|].
    intros k v Hk. destruct (Y3 k v Hk) as (u & dd & U1 & U2 & U3). exists u. rewrite Hdx in U2. injection U2 as <-. auto.
  - intros k v Hk. destruct k; discriminate.
Qed.
Theorem C55_idempotent : forall num (Num : NumOps num) (Ar : ArithOps num) (d d' : na num),
  normalizeIndVars_2010 d = Ok d' ->
  exists d'', normalizeIndVars_2010 d' = Ok d'' /\ forall k, d'' k = d' k.
Proof.
  intros num Num Ar d d' E. unfold normalizeIndVars_2010 in *. destruct (attr d kNIV) as [|niv| | |] eqn:Hn; try discriminate.
  cbn [as_int bindR] in E. unfold range in E. destruct (normalize_loop _ _ _ _ E) as (A & B & C).
  assert (Hn' : attr d' kNIV = PInt niv) by (unfold attr in *; rewrite B by discriminate; exact Hn).
  rewrite Hn'. cbn [as_int bindR]. unfold range.
  destruct (forR_fix (Z.to_nat (niv - 1)) d d') with (a := Z.to_nat (niv - 1)) (e := d') as (d'' & E1 & E2).
  - intros i Hi. apply A. lia.
  - exact B.
  - lia.
  - reflexivity.
  - rewrite Nat.sub_diag in E1. exists d''. auto.
Qed.
(** In exact arithmetic value k is the first value plus k*DX. *)
Theorem C55_exact : forall num (Num : NumOps num) (Ar : ArithOps num),
  (forall x d, num_plus x (num_times (num_of_Z 0) d) = x) ->
  (forall x k d, num_plus (num_plus x (num_times (num_of_Z (Z.of_nat k)) d)) d = num_plus x (num_times (num_of_Z (Z.of_nat (S k))) d)) ->
  forall x0 x dx (x' : list (pyv num)), goes_on (PNum dx) (PNum x0 :: x) x' ->
  forall k v, nth_error x' k = Some v -> v = PNum (num_plus x0 (num_times (num_of_Z (Z.of_nat k)) dx)).
Proof.
  intros num Num Ar H0 H1 x0 x dx x' (Ha & Hb). induction k as [|k IH]; intros v Hv.
  - destruct x' as [|y x']; [discriminate|]. cbn in Ha, Hv. injection Ha as ->. injection Hv as <-. cbn [Z.of_nat]. now rewrite H0.
  - destruct (Hb k v Hv) as (u & U1 & U2). rewrite (IH u U1) in U2. cbn [pv_add] in U2. injection U2 as <-. now rewrite H1.
Qed.
(** Whole numbers meet the two laws. *)
Definition whole_arith : ArithOps whole := {|
  num_plus := fun x y => match x, y with Whole a, Whole b => Whole (a + b) end;
  num_minus := fun x y => match x, y with Whole a, Whole b => Whole (a - b) end;
  num_times := fun x y => match x, y with Whole a, Whole b => Whole (a * b) end;
  num_same := fun x y => match x, y with Whole a, Whole b => (a =? b)%Z end;
  num_isnan := fun _ => false
|}.
Example C55_exact_example : forall x0 x dx (x' : list (pyv whole)), @goes_on whole WholeOps whole_arith (PNum dx) (PNum x0 :: x) x' ->
  forall k v, nth_error x' k = Some v ->
  v = PNum (@num_plus whole whole_arith x0 (@num_times whole whole_arith (num_of_Z (Z.of_nat k)) dx)).
Proof.
  apply C55_exact.
  - intros [x] [d]. cbn. f_equal. lia.
  - intros [x] k [d]. cbn [num_plus num_times num_of_Z whole_arith WholeOps]. f_equal. lia.
Qed.

(** A 2010 file; [nx], [nxdef] and the lines with the axis values are given. *)
Definition file_2010 (dx nx nxdef : str) (xs : list str) (values : list str) : str :=
  unlines ((dec_of_nat (19 + length xs) ++ lit " 2010") ::
    map lit ["A, B"; "Org"; "Src"; "Mission"; "1 1"; "1999 01 01 2000 02 02"]%pylit ++ [dx; nx; nxdef] ++ xs ++
    map lit ["height (m)"; "time (s)"; "1"; "1"; "-9999"; "temp (K)"; "0"; "0"; "0"]%pylit ++ values).
(** An abbreviated axis: the three listed values become five. *)
Definition f_short : str := file_2010 (lit "10 1") (lit "5") (lit "3") [lit "0 10 20"] (map lit ["0.5"; "1 2 3 4 5"]%pylit).
Definition axis_of (r : Res (na b64)) (i : nat) : Res (list (pyv b64)) :=
  match r with Ok d => bindR (index (attr d kX) i) as_list | Err e => Err e end.
Definition opened (content : str) : Res (na b64) := bindR (openNAFile_r (num:=b64) content 0) (fun p => Ok (snd p)).
Example C55_example :
  is_ok (read_file (num:=b64) f_short 0) = true /\
  axis_of (opened f_short) 1 = Ok (map PNum [bf "0"; bf "10"; bf "20"]) /\
  axis_of (bindR (opened f_short) normalizeIndVars_2010) 1 = Ok (map PNum [bf "0"; bf "10"; bf "20"; bf "30"; bf "40"]).
Proof. split; [|split]; vm_compute; reflexivity. Qed.
(** False of the code: the three axis values of a file are on two lines, the
    second line has one more; the axis is kept with four values. *)
Theorem C55_length_refuted : exists content d d',
  openNAFile_r (num:=b64) content 0 = Ok (C2010, d) /\ normalizeIndVars_2010 d = Ok d' /\
  attr d' kNX = PList [PInt 3] /\ attr d' kNXDEF = PList [PInt 3] /\
  index (attr d' kX) 1 = Ok (PList (map PNum [bf "0"; bf "10"; bf "20"; bf "99"])).
Proof.
  exists (file_2010 (lit "10 1") (lit "3") (lit "3") [lit "0 10"; lit "20 99"] (map lit ["0.5"; "1 2 3"]%pylit)).
  assert (E : exists d, openNAFile_r (num:=b64) (file_2010 (lit "10 1") (lit "3") (lit "3") [lit "0 10"; lit "20 99"] (map lit ["0.5"; "1 2 3"]%pylit)) 0
                        = Ok (C2010, d) /\ normalizeIndVars_2010 d = Ok d /\ attr d kNX = PList [PInt 3] /\ attr d kNXDEF = PList [PInt 3] /\
    index (attr d kX) 1 = Ok (PList (map PNum [bf "0"; bf "10"; bf "20"; bf "99"]))).
  { eexists. split; [vm_compute; reflexivity|]. split; [vm_compute; reflexivity|]. split; [vm_compute; reflexivity|]. split; vm_compute; reflexivity. }
  destruct E as (d & A & B). exists d, d. auto.
Qed.
(** No values wanted: one is left. *)
Theorem C55_none_refuted : exists (d d' : na b64) x,
  normalizeIndVars_2010 d = Ok d' /\ index (attr d' kNX) 0 = Ok (PInt 0) /\ index (attr d' kX) 1 = Ok (PList [x]).
Proof.
  exists (of_list [(kNIV, PInt 2); (kNX, PList [PInt 0]); (kNXDEF, PList [PInt 1]); (kDX, PList [PNum (bf "1"); PNum (bf "1")]);
                   (kX, PList [PList []; PList [PNum (bf "5")]])]).
  do 2 eexists. split; [vm_compute; reflexivity|]. split; vm_compute; reflexivity.
Qed.
(** With floating point numbers the values are sums, not first + k*DX: value 6
    of the axis 0, 0.1, ... is 0.6, but 0 + 6*0.1 is 0.6000000000000001. *)
Theorem C55_closed_form_refuted : exists content d d' v,
  openNAFile_r (num:=b64) content 0 = Ok (C2010, d) /\ normalizeIndVars_2010 d = Ok d' /\
  bindR (index (attr d' kX) 1) (fun x => index x 6) = Ok (PNum v) /\
  index (attr d' kDX) 1 = Ok (PNum (bf "0.1")) /\ bindR (index (attr d' kX) 1) (fun x => index x 0) = Ok (PNum (bf "0")) /\
  num_same v (num_plus (bf "0") (num_times (num_of_Z 6) (bf "0.1"))) = false.
Proof.
  exists (file_2010 (lit "0.1 1") (lit "8") (lit "1") [lit "0"] (map lit ["0.5"; "1 2 3 4 5 6 7 8"]%pylit)).
  destruct (openNAFile_r (num:=b64) (file_2010 (lit "0.1 1") (lit "8") (lit "1") [lit "0"] (map lit ["0.5"; "1 2 3 4 5 6 7 8"]%pylit)) 0) as [(c, d)|e] eqn:E.
  2: { assert (K : is_ok (openNAFile_r (num:=b64) (file_2010 (lit "0.1 1") (lit "8") (lit "1") [lit "0"] (map lit ["0.5"; "1 2 3 4 5 6 7 8"]%pylit)) 0) = true)
         by (vm_compute; reflexivity). rewrite E in K. discriminate. }
  vm_compute in E. injection E as <- <-. do 3 eexists. split; [reflexivity|]. split; [vm_compute; reflexivity|].
  split; [vm_compute; reflexivity|]. split; [vm_compute; reflexivity|]. split; vm_compute; reflexivity.
Qed.

(** * C57 *)
(** False of the code for every FFI 1020 file that can be read: the marks are
    numbers, the code wants to iterate over the first one. *)
Theorem C57_refuted : forall num (Num : NumOps num) (Ar : ArithOps num) (h : na num) content d,
  readData h C1020 content = Ok d ->
  normalizeIndVars_1020 d = Err ETypeError \/ normalizeIndVars_1020 d = Err EIndexError.
Proof.
  intros num Num Ar h content d E.
  destruct (C24_rectangular h C1020 content d) as (nv & xs & _ & EX & HX & _); [cbn; tauto|exact E|].
  unfold normalizeIndVars_1020. rewrite EX. destruct HX as [|x xs Hx HX]; [right; reflexivity|left].
  destruct Hx as (y & ->). reflexivity.
Qed.
Example C57_example : exists d, read_file (num:=b64) (unlines (map lit ["17 1020"; "A, B"; "Org"; "Src"; "Mission"; "1 1"; "1999 01 01 2000 02 02";
    "0.5"; "2"; "time (s)"; "1"; "1"; "-9999"; "temp (K)"; "0"; "0"; "0"; "0"; "10 20"; "1"; "30 40"]%pylit)) 0 = Ok (C1020, d) /\
  normalizeIndVars_1020 d = Err ETypeError.
Proof. eexists. split; vm_compute; reflexivity. Qed.
Lemma mapR_ok {A B} (f : A -> Res B) (g : A -> B) l : (forall x, f x = Ok (g x)) -> mapR f l = Ok (map g l).
Proof. intros Hf. induction l as [|x l IH]; [reflexivity|]. cbn [mapR map]. rewrite Hf. cbn [bindR]. rewrite IH. reflexivity. Qed.
(** What the code computes when the marks are a list inside a list and DX is a
    number, which no reader produces. *)
Theorem C57_nested_partial : forall num (Num : NumOps num) (Ar : ArithOps num) (d : na num) marks rest nvpm dx,
  attr d kX = PList (PList (map PNum marks) :: rest) -> attr d kNVPM = PInt nvpm -> attr d kDX = PNum dx ->
  exists d', normalizeIndVars_1020 d = Ok d' /\ (forall k, k <> kX -> d' k = d k) /\
    attr d' kX = PList (PList (concat (map (fun x => map (fun i => PNum (num_plus x (num_times (num_of_Z (Z.of_nat i)) dx)))
      (seq 0 (Z.to_nat nvpm))) marks)) :: rest).
Proof.
  intros num Num Ar d marks rest nvpm dx EX EN ED. unfold normalizeIndVars_1020. rewrite EX. cbn [index as_list bindR nth_res nth_error of_opt].
  assert (Fin : forall z, (marks <> [] -> z = nvpm) -> exists d',
    bindR (mapR (fun x => mapR (fun i => bindR (pv_times (Z.of_nat i) (attr d kDX)) (fun s => pv_add x s)) (range z)) (map PNum marks))
     (fun newX => bindR (modify_in (PList (PList (map PNum marks) :: rest)) 0 (fun _ => Ok (PList (concat newX))))
       (fun X => Ok (upd d kX X))) = Ok d' /\ (forall k, k <> kX -> d' k = d k) /\
    attr d' kX = PList (PList (concat (map (fun x => map (fun i => PNum (num_plus x (num_times (num_of_Z (Z.of_nat i)) dx)))
      (seq 0 (Z.to_nat nvpm))) marks)) :: rest)).
  { intros z Hz.
    assert (M : mapR (fun x => mapR (fun i => bindR (pv_times (Z.of_nat i) (attr d kDX)) (fun s => pv_add x s)) (range z)) (map PNum marks)
      = Ok (map (fun x => map (fun i => PNum (num_plus x (num_times (num_of_Z (Z.of_nat i)) dx))) (seq 0 (Z.to_nat z))) marks)).
    { rewrite ED. clear Hz EX. induction marks as [|x marks IH]; [reflexivity|]. cbn [map mapR].
      rewrite (mapR_ok _ (fun i => PNum (num_plus x (num_times (num_of_Z (Z.of_nat i)) dx)))) by reflexivity.
      cbn [bindR]. rewrite IH. reflexivity. }
    rewrite M. cbn [bindR modify_in modify_nth]. eexists. split; [reflexivity|]. split.
    - intros k Hk. unfold upd. destruct (key_beq kX k) eqn:K; [|reflexivity]. apply internal_key_dec_bl in K. congruence.
    - rewrite attr_upd. destruct marks as [|m0 marks]; [reflexivity|]. rewrite Hz by discriminate. reflexivity. }
  destruct marks as [|m0 marks].
  - cbn [map bindR]. apply (Fin 0%Z). congruence.
  - cbn [map]. rewrite EN. cbn [as_int bindR]. apply (Fin nvpm). reflexivity.
Qed.
Example C57_nested_example : exists d', normalizeIndVars_1020 (num:=b64)
    (of_list [(kX, PList [PList (map PNum [bf "0"; bf "1"])]); (kNVPM, PInt 2); (kDX, PNum (bf "0.5"))]) = Ok d' /\
  attr d' kX = PList [PList (map PNum [bf "0"; bf "0.5"; bf "1"; bf "1.5"])].
Proof. eexists. split; vm_compute; reflexivity. Qed.

Print Assumptions C55_expanded_partial.
Print Assumptions C55_idempotent.
Print Assumptions C55_exact.
Print Assumptions C55_length_refuted.
Print Assumptions C55_none_refuted.
Print Assumptions C55_closed_form_refuted.
Print Assumptions C57_refuted.
Print Assumptions C57_nested_partial.
