(** C122: dates on the second or a later axis (na_content_collector.py
    [_appendAxisDefinition] and the formats 2110 and 2310) and writing them. *)
From Coq Require Import List NArith ZArith Bool Lia.
From Verif Require Import Py.Str Py.Res Py.Num Py.Arith Model.Dict Model.CommonUtils Model.NAWrite Model.NARead Spec.TextSpec Spec.Records
  Spec.RoundTripSpec Model.Xarray Model.Collector Spec.CollectorSpec Spec.WholeNum Proofs.StrLemmas Proofs.ReadFrame Proofs.WriteSim Proofs.CollectorLemmas
  Proofs.CollectorFrame Props.CollectorProps Props.AxisProps Props.ValuesProps Props.NcRoundTrip Props.GridRoundTrip Props.ProfileRoundTrip.
Import ListNotations.

Local Ltac pure_tac := repeat first
  [ apply pure_ret | apply pure_lift | apply pure_self | apply pure_fwrite | apply pure_hwrite
  | (apply pure_forW; intros) | (apply pure_bind; [| intros]) ].
Section Blocked.
Context {num : Type} `{NumOps num}.
Variable o : opts num.
Local Notation W := (W num).
Local Notation na := (na num).
Local Notation pyv := (pyv num).

(** Runs that cannot end well with a dictionary of the kind [P]. *)
Definition blocked (P : na -> Prop) {A} (m : W A) : Prop := forall s a s', P (w_na s) -> m s <> (Ok a, s').
Definition stable (P : na -> Prop) {A} (m : W A) : Prop := forall s a s', m s = (Ok a, s') -> P (w_na s) -> P (w_na s').
Lemma blocked_bind1 P {A B} (m : W A) (f : A -> W B) : blocked P m -> blocked P (bindW m f).
Proof. intros Hm s b s' Hp R. unfold bindW in R. destruct (m s) as [[a | e] s1] eqn:Em; [| discriminate R]. exact (Hm _ _ _ Hp Em). Qed.
Lemma blocked_bind2 P {A B} (m : W A) (f : A -> W B) : stable P m -> (forall a, blocked P (f a)) -> blocked P (bindW m f).
Proof.
  intros Hm Hf s b s' Hp R. unfold bindW in R. destruct (m s) as [[a | e] s1] eqn:Em; [| discriminate R]. exact (Hf _ _ _ _ (Hm _ _ _ Em Hp) R).
Qed.
Lemma stable_pure P {A} (m : W A) : pure m -> stable P m.
Proof. intros Hm s a s' R Hp. rewrite (Hm _ _ _ R). exact Hp. Qed.

(** A list of axis values with a date. *)
Definition dated_axis (d : na) : Prop := exists i niv n xs, attr d kNIV = PInt niv /\ (i < Z.to_nat (niv - 1))%nat /\
  index (attr d kNXDEF) i = Ok (PInt (Z.of_nat (S n))) /\ index (attr d kX) (S i) = Ok (PList (PNone :: xs)).
Lemma stable_dated k : In k [kDX; kNX] -> stable dated_axis (reverse_in_place k).
Proof.
  intros I s a s' R (i & niv & n & xs & P1 & P2 & P3 & P4).
  assert (K : forall k', In k' [kNIV; kNXDEF; kX] -> attr (w_na s') k' = attr (w_na s) k').
  { intros k' J. unfold attr. rewrite (keeps_reverse k ltac:(cbn in *; tauto) _ _ _ R k'); [reflexivity |]. cbn in J |- *. intros Q. intuition congruence. }
  exists i, niv, n, xs. rewrite !K by (cbn; tauto). auto.
Qed.
Lemma x_line_dated d i n xs : index (attr d kNXDEF) i = Ok (PInt (Z.of_nat (S n))) -> index (attr d kX) (S i) = Ok (PList (PNone :: xs)) ->
  exists e, x_line o (attr d kNXDEF) (attr d kX) i = Err e.
Proof.
  intros A B. unfold x_line. rewrite A. replace (i + 1)%nat with (S i) by lia. rewrite B. cbn [bindR as_int as_list].
  unfold slice_to. destruct (Z.ltb_spec (Z.of_nat (S n)) 0); [lia |]. rewrite Nat2Z.id. cbn [firstn].
  destruct (Nat.eqb _ _); [| eauto]. cbn [mapR fmt_item fmt_f bindR]. eauto.
Qed.
Lemma header_blocked : blocked dated_axis (writeHeader_2010 o).
Proof.
  unfold writeHeader_2010.
  apply blocked_bind2; [apply stable_pure, pure_common | intros _].
  apply blocked_bind2; [apply stable_dated; cbn; tauto | intros _].
  apply blocked_bind2; [apply stable_pure; unfold hwrap, wrapLine, self_int, self_list; pure_tac | intros _].
  apply blocked_bind2; [apply stable_dated; cbn; tauto | intros _].
  apply blocked_bind2; [apply stable_pure; unfold hwrap, wrapLine, self_int, self_list; pure_tac | intros _].
  apply blocked_bind2; [apply stable_pure; unfold hwrap, wrapLine, self_int, self_list; pure_tac | intros _].
  apply blocked_bind1. intros s a s' (i & niv & n & xs & P1 & P2 & P3 & P4) R.
  unfold self_int, bindW, self, liftW in R. rewrite P1 in R. cbn [as_int] in R.
  destruct (mapR (x_line o (attr (w_na s) kNXDEF) (attr (w_na s) kX)) (range (niv - 1))) as [l | e] eqn:M; [| discriminate R].
  assert (J : nth_error (range (niv - 1)) i = Some i).
  { unfold range. rewrite nth_error_nth' with (d := 0%nat) by (rewrite seq_length; exact P2). rewrite seq_nth by exact P2. reflexivity. }
  destruct (mapR_nth _ _ _ _ _ M J) as (y & Q & _). destruct (x_line_dated _ _ _ _ P3 P4) as (e & Q'). rewrite Q' in Q. discriminate Q.
Qed.
Lemma body_header k P (d : na) h : blocked P (writeHeader o k) -> P d -> fst (write_body o k false (mkW [] h d)) <> Ok tt.
Proof.
  intros Hb Hp R. unfold write_body, bindW in R. cbn [w_file w_na] in R.
  destruct (writeHeader o k {| w_file := []; w_head := []; w_na := d |}) as [[u | e] s1] eqn:Q; [| discriminate R].
  exact (Hb {| w_file := []; w_head := []; w_na := d |} u s1 Hp Q).
Qed.
Lemma body_data k P nh (d : na) h : blocked P (writeData o k) -> P d -> (nh = false -> P (header_eff k d)) -> fst (write_body o k nh (mkW [] h d)) <> Ok tt.
Proof.
  intros Hb Hp Hh R. unfold write_body, bindW in R. cbn [w_file w_na] in R. destruct nh.
  - cbn in R. destruct (writeData o k {| w_file := []; w_head := []; w_na := d |}) as [[u | e] s1] eqn:Q; [| discriminate R]. exact (Hb {| w_file := []; w_head := []; w_na := d |} u s1 Hp Q).
  - destruct (writeHeader o k {| w_file := []; w_head := []; w_na := d |}) as [[u | e] s1] eqn:Q; [| discriminate R].
    assert (G := eff_header o k _ _ _ Q). cbn [w_na] in G.
    destruct (writeData o k s1) as [[u' | e] s2] eqn:Q2; [| discriminate R]. refine (Hb s1 u' s2 _ Q2). rewrite G. exact (Hh eq_refl).
Qed.

(** The first record has a date for one of its marks, or as auxiliary value. *)
Definition dated_2110 (d : na) : Prop := exists x r l n, attr d kX = PList (PList [x; PList r] :: l) /\ attr d kNX = PList (PInt (Z.of_nat (S n)) :: map (fun _ => PInt (Z.of_nat (S n))) l) /\
  (x = PNone \/ exists r', r = PNone :: r').
Definition dated_2310 (d : na) : Prop := exists x r l, attr d kX = PList (PList [x; PList r] :: l) /\
  (x = PNone \/ exists na, attr d kNAUXV = PInt na /\ (1 < na)%Z /\ index2 (attr d kA) 1 0 = Ok PNone).
Lemma data_2110_blocked : blocked dated_2110 (writeData_2110 o).
Proof.
  intros s a s' (x & r & l & n & P1 & P2 & P3) R. unfold writeData_2110, bindW, self, liftW in R. rewrite P1 in R.
  cbn [range_len as_list bindR length seq forW] in R. unfold bindW at 1 in R.
  assert (Pw : pure (write_x_aux o (index2 (PList (PList [x; PList r] :: l)) 0 0) 0)) by (unfold write_x_aux, write_data_line, wrapLine, self_int; pure_tac).
  destruct (write_x_aux o (index2 (PList (PList [x; PList r] :: l)) 0 0) 0 s) as [[u | e] s1] eqn:Q; [| discriminate R].
  assert (G := Pw _ _ _ Q). destruct P3 as [-> | (r' & ->)].
  - unfold write_x_aux, bindW, liftW in Q. cbn in Q. discriminate Q.
  - destruct (write_inner_2110 o (PList (PList [x; PList (PNone :: r')] :: l)) 0 s1) as [[u' | e] s2] eqn:Q2; [| discriminate R].
    unfold write_inner_2110, bindW, self, liftW in Q2. rewrite G, P2 in Q2. cbn [index as_list bindR nth_res nth_error of_opt as_int] in Q2.
    unfold range in Q2. rewrite Nat2Z.id in Q2. cbn [seq forW] in Q2. unfold bindW at 1 in Q2. cbn in Q2. discriminate Q2.
Qed.
Lemma data_2310_blocked : blocked dated_2310 (writeData_2310 o).
Proof.
  intros s a s' (x & r & l & P1 & P3) R. unfold writeData_2310, bindW, self, liftW in R. rewrite P1 in R.
  cbn [range_len as_list bindR length seq forW] in R. unfold bindW at 1 in R.
  destruct (write_x_aux o (index2 (PList (PList [x; PList r] :: l)) 0 0) 0 s) as [[u | e] s1] eqn:Q; [| discriminate R].
  destruct P3 as [-> | (na & A1 & A2 & A3)].
  - unfold write_x_aux, bindW, liftW in Q. cbn in Q. discriminate Q.
  - unfold write_x_aux, self_int, bindW, self, liftW in Q. rewrite A1 in Q. cbn [as_int] in Q.
    destruct (cat_items o [tt] _) as [xs |]; [| discriminate Q].
    unfold cat_items in Q. destruct (mapR (fun i => bindR (index2 (attr (w_na s) kA) i 0) (fmt_item o)) (range na)) as [ss |] eqn:M; [| discriminate Q].
    assert (J : nth_error (range na) 1 = Some 1%nat).
    { unfold range. assert (2 <= Z.to_nat na)%nat by lia. rewrite nth_error_nth' with (d := 0%nat) by (rewrite seq_length; lia). rewrite seq_nth by lia. reflexivity. }
    destruct (mapR_nth _ _ _ _ _ M J) as (y & Q' & _). rewrite A3 in Q'. discriminate Q'.
Qed.
End Blocked.

(** ** C122 *)
(** A dictionary that was made from a variable with dates on the second or a later
    axis cannot be written with its header, whatever the options are. *)
Theorem C122_bounded_partial : forall num (Num : NumOps num) (Ar : ArithOps num) (E : env num) req globals (vars : list (xvar num)) cs c d ffi v rest b,
  ~ In (lit "file_format_index") (map fst globals) -> convert E req globals vars = Ok (Some cs) -> In c cs -> c_main c = v :: rest -> c_na c = Some d ->
  d kFFI = Some (PInt ffi) -> In ffi [2010; 3010; 4010]%Z -> In b (tl (v_axes v)) -> ax_time b <> None -> ax_vals b <> [] ->
  forall (o : opts num) k h, In k [C2010; C3010; C4010] -> fst (write_body o k false (mkW [] h d)) <> Ok tt.
Proof.
  intros num Num Ar E req globals vars cs c d ffi v rest b Ng R I Ev Nd Hf If Ib Tb Nb o k h Ik.
  destruct (converted_axes _ _ _ E _ _ _ _ _ _ _ _ _ Ng R I Ev Nd Hf If) as (Hn & bx & axes & es & dx0 & nm0 & Va & F & C1 & C2 & C3 & C4 & _ & _).
  rewrite Va in Ib, Hn. cbn [tl length] in Ib, Hn. destruct (In_nth_error _ _ Ib) as (i & Hi).
  assert (Li : (i < length axes)%nat) by (apply nth_error_Some; congruence).
  assert (Le : length axes = length es) by (clear - F; induction F; cbn; congruence).
  destruct (nth_error es i) as [e |] eqn:He; [| apply nth_error_None in He; lia].
  assert (G : entry_of b e). { clear - F Hi He. revert i Hi He. induction F as [| x y l l' P F IH]; intros [| i] A B; try discriminate A; cbn in A, B; [congruence | exact (IH i A B)]. }
  destruct G as (_ & G & _). destruct (G (or_introl Tb)) as (G1 & G2).
  apply (body_header o k dated_axis).
  - cbn in Ik. destruct Ik as [<- | [<- | [<- | []]]]; exact (header_blocked o).
  - assert (X : exists xs, ax_items b = PNone :: xs).
    { unfold ax_items, is_time. destruct (ax_time b); [| congruence]. destruct (ax_vals b); [congruence |]. eexists. reflexivity. }
    destruct X as (xs & X).
    assert (L : exists n, ax_len b = S n) by (unfold ax_len; destruct (ax_vals b); [congruence | eexists; reflexivity]). destruct L as (n & L).
    exists i, (Z.of_nat (S (length axes))), n, xs. split; [exact Hn |]. split; [lia |]. rewrite C2, C4. unfold index, nth_res. cbn [as_list bindR nth_error].
    rewrite !nth_error_map, He. cbn [option_map of_opt]. rewrite G1, G2, L, X. auto.
Qed.
Lemma rev_other num (k k' : key) (d : na num) : k' <> k -> rev_key k d k' = d k'.
Proof. intros N. unfold rev_key. destruct (attr d k); try reflexivity. apply upd_other. congruence. Qed.
(** In the formats 2110 and 2310 dates on either axis cannot be written, not even
    without a header. *)
Theorem C122_profiles_partial : forall num (Num : NumOps num) (Ar : ArithOps num) (E : env num) req globals (vars : list (xvar num)) cs c d ffi v rest a b,
  ~ In (lit "file_format_index") (map fst globals) -> convert E req globals vars = Ok (Some cs) -> In c cs -> c_main c = v :: rest -> c_na c = Some d ->
  d kFFI = Some (PInt ffi) -> v_axes v = [a; b] -> ax_time a <> None \/ ax_time b <> None -> ax_vals a <> [] -> ax_vals b <> [] ->
  forall (o : opts num) k nh h, (ffi, k) = (2110%Z, C2110) \/ (ffi, k) = (2310%Z, C2310) -> fst (write_body o k nh (mkW [] h d)) <> Ok tt.
Proof.
  intros num Num Ar E req globals vars cs c d ffi v rest a b Ng R I Ev Nd Hf Va T Na Nb o k nh h K.
  destruct (converted_profile E _ _ _ _ _ _ _ _ _ _ _ Ng R I Nd Hf Ev Va) as (P1 & P2).
  assert (It : forall x : axis num, ax_time x <> None -> ax_vals x <> [] -> exists xs, ax_items x = PNone :: xs).
  { intros x Tx Nx. unfold ax_items, is_time. destruct (ax_time x); [| congruence]. destruct (ax_vals x); [congruence |]. eexists. reflexivity. }
  assert (L : exists n, ax_len b = S n) by (unfold ax_len; destruct (ax_vals b); [congruence | eexists; reflexivity]). destruct L as (n & L).
  assert (Ca : exists x0 xs y0 ys, ax_vals a = y0 :: ys /\ ax_items a = x0 :: xs /\ length xs = length ys /\ (ax_time a <> None -> x0 = PNone)).
  { unfold ax_items, is_time. destruct (ax_vals a) as [| y0 ys]; [congruence |]. destruct (ax_time a); cbn [map]; do 4 eexists; repeat (split; [reflexivity |]); (split; [apply map_length | congruence]). }
  destruct Ca as (x0 & xs & y0 & ys & Y & X & Lx & X0).
  assert (Same : forall k', ~ In k' [kDX; kXNAME] -> In k [C2110; C2310] -> attr (header_eff k d) k' = attr d k').
  { intros k' N J. unfold attr. cbn in J. destruct J as [<- | [<- | []]]; cbn [header_eff]; rewrite ?rev_other by (intros ->; cbn in N; tauto); reflexivity. }
  destruct K as [K | K]; injection K as -> ->.
  - destruct (P1 eq_refl) as (s & t & r0 & r1 & (_ & _ & _ & Sx & Sn) & _ & _). clear P1 P2.
    assert (D : dated_2110 d).
    { exists x0, (ax_items b), (map (fun x => PList [x; PList (ax_items b)]) xs), n. rewrite Sx, Sn, X, Y. cbn [map]. rewrite L. split; [reflexivity |]. split.
      - do 2 f_equal. rewrite map_map. clear - Lx. revert ys Lx. induction xs as [| x xs IH]; intros [| y ys] Q; try discriminate Q; [reflexivity |]. cbn [map]. f_equal. apply IH. cbn in Q. lia.
      - destruct T as [T | T]; [left; exact (X0 T) | right; exact (It b T Nb)]. }
    apply (body_data o C2110 dated_2110); [exact (data_2110_blocked o) | exact D |]. intros _. unfold dated_2110. rewrite !Same by (cbn; intuition discriminate). exact D.
  - destruct (P2 eq_refl) as (s & t & u0 & u1 & z0 & (_ & _ & _ & Sx & Sn) & _ & _ & Z0 & _ & (es & _ & _ & _ & _ & Av & Nx)). clear P1 P2.
    assert (D : dated_2310 d).
    { exists x0, (ax_items b), (map (fun x => PList [x; PList (ax_items b)]) xs). rewrite Sx, X. split; [reflexivity |].
      destruct T as [T | T]; [left; exact (X0 T) | right]. destruct (It b T Nb) as (zs & Q). rewrite Q in Z0. injection Z0 as <-.
      eexists. split; [exact Nx |]. split; [cbn [length]; lia |]. rewrite Av, Y. reflexivity. }
    apply (body_data o C2310 dated_2310); [exact (data_2310_blocked o) | exact D |]. intros _. unfold dated_2310. rewrite !Same by (cbn; intuition discriminate). exact D.
Qed.
Print Assumptions C122_bounded_partial.
Print Assumptions C122_profiles_partial.

(** The same heights at two times, the times first and second: the one is
    written, the other one is not; without a header the dates are left out. *)
Definition days : axis wnan := mkAx (mkNamed (lit "time") [] (lit "days since 2000-01-01")) [Some (lit "time"); None; None; None] (ws [10; 11]%Z) (Some (ws [0; 1]%Z)).
Definition high : axis wnan := zw (lit "z") [1; 2]%Z.
Definition by_time (axes : list (axis wnan)) : xvar wnan := mkVar (mkNamed (lit "q") [] []) axes (rows [[1; 2]; [3; 4]]%Z) None None.
Definition written (nh : bool) (req : option Z) (k : cls) (v : xvar wnan) : option (Res unit * str) :=
  match convert env_u req (gl (lit "Test")) [v] with
  | Ok (Some [c]) => match c_na c with
     | Some d => let r := write_body opts_wnan k nh (mkW [] [] d) in Some (fst r, w_file (snd r))
     | None => None end
  | _ => None
  end.
Example C122_example :
  option_map fst (written false None C2010 (by_time [days; high])) = Some (Ok tt) /\
  option_map fst (written false None C2010 (by_time [high; days])) = Some (Err ETypeError) /\
  written true None C2010 (by_time [high; days]) = Some (Ok tt, unlines (map lit ["1"; "1    2"; "2"; "3    4"]%pylit)) /\
  option_map fst (written true (Some 2110%Z) C2110 (by_time [days; high])) = Some (Err ETypeError) /\
  option_map fst (written true (Some 2310%Z) C2310 (by_time [high; days])) = Some (Err ETypeError) /\
  ax_time days <> None /\ ax_vals days <> [].
Proof. vm_compute. repeat split; discriminate. Qed.
(** So what the conversion accepts is not always what can be written. *)
Theorem C122_refuted : exists num (Num : NumOps num) (Ar : ArithOps num) (E : env num) globals (v : xvar num) c d (o : opts num),
  convert E None globals [v] = Ok (Some [c]) /\ c_main c = [v] /\ c_na c = Some d /\ attr d kFFI = PInt 2010 /\ Forall (fun b => ax_vals b <> []) (v_axes v) /\
  fst (write_body o C2010 false (mkW [] [] d)) = Err ETypeError.
Proof.
  exists wnan, _, _, env_u, (gl (lit "Test")), (by_time [high; days]).
  destruct (convert env_u None (gl (lit "Test")) [by_time [high; days]]) as [[[| c [| c' l]] |] |] eqn:R; vm_compute in R; try discriminate R.
  injection R as <-. do 2 eexists. exists opts_wnan. split; [vm_compute; reflexivity |]. split; [reflexivity |]. split; [reflexivity |]. split; [reflexivity |].
  split; [| vm_compute; reflexivity]. repeat constructor; discriminate.
Qed.
Print Assumptions C122_refuted.
