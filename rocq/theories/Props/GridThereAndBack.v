(** C107: variables of two to four dimensions from NetCDF to a NASA Ames file and
    back. *)
From Coq Require Import List NArith ZArith Bool Lia.
From Verif Require Import Py.Str Py.Res Py.Num Py.Arith Model.Dict Model.CommonUtils Model.Utils Model.NAWrite Model.NARead Model.NACore Model.Normalize Spec.TextSpec Spec.Records
  Spec.RoundTripSpec Spec.RewriteSpec Model.Xarray Model.Collector Model.ToXarray Spec.ValuesSpec Spec.CollectorSpec Spec.NcRoundTripSpec Spec.ToXarraySpec Spec.BackSpec Spec.GridSpec
  Spec.WholeNum Spec.Binary64 Proofs.StrLemmas Proofs.ReadFrame Proofs.ReadFile Proofs.NumLemmas Proofs.CollectorLemmas Props.CoreProps Props.RoundTrip Props.CollectorProps
  Props.AxisProps Props.ValuesProps Props.NcRoundTrip Props.NormalizeProps Props.ToXarrayProps Props.ToXarrayMore Proofs.Convertible Props.ConvertibleProps Props.ThereAndBack Props.GridRoundTrip.
Import ListNotations.

Section Back.
Context {num : Type} {Num : NumOps num} {Ar : ArithOps num}.
Lemma axis_vals_at callback warning (d : na num) niv i k a k' : attr d kNIV = PInt niv -> (niv =? 1)%Z = false ->
  convertAxis callback warning d i k = Ok (a, k') -> exists v, index (attr d kX) i = Ok v /\ nums_of v = Ok (ax_vals a).
Proof.
  intros Hn H1 E. unfold convertAxis in E. rewrite Hn in E. cbn [as_int bindR] in E. rewrite H1 in E. bindE E array Ha. bindE E vals Hw.
  bindE E xn Hxn. bindE E ln Hln. destruct (attemptVarAndUnitsMatch callback ln) as [name units]. exists array. split; [exact Ha |].
  destruct (axis_type _) as [[t u]|];
  (destruct (is_nil vals) eqn:En; [discriminate|]; bindE E r Hr; destruct r as [[at1 enc] k1]; injection E as <- _; rewrite Hw; reflexivity).
Qed.
Lemma axes_loop_vals callback warning (d : na num) niv : attr d kNIV = PInt niv -> (niv =? 1)%Z = false ->
  forall n a acc k as0 k0, axes_loop callback warning d (seq a n) (acc, k) = Ok (as0, k0) ->
  exists as', as0 = acc ++ as' /\ length as' = n /\
    forall i x, nth_error as' i = Some x -> exists v, index (attr d kX) (a + i) = Ok v /\ nums_of v = Ok (ax_vals x).
Proof.
  intros Hn H1. induction n as [|n IH]; intros a acc k as0 k0 E.
  - cbn in E. injection E as <- _. exists []. rewrite app_nil_r. repeat split. intros [|i] x I; discriminate.
  - cbn [seq axes_loop forR fst snd] in E. destruct (convertAxis callback warning d a k) as [[x k1]|] eqn:E1; cbn [bindR fst snd] in E; [|discriminate].
    destruct (IH _ _ _ _ _ E) as (as' & -> & L & A). exists (x :: as'). rewrite <- app_assoc. split; [reflexivity|]. split; [cbn; congruence|].
    intros [|i] y I; cbn in I.
    + injection I as <-. rewrite Nat.add_0_r. exact (axis_vals_at _ _ _ _ _ _ _ _ Hn H1 E1).
    + rewrite Nat.add_succ_r. apply (A i y I).
Qed.
Lemma selected_at {A} (f : nat -> Res A) n l : mapR f (range n) = Ok l -> length l = Z.to_nat n /\ forall i, (i < Z.to_nat n)%nat -> exists v, nth_error l i = Some v /\ f i = Ok v.
Proof.
  intros H. split; [rewrite (mapR_length _ _ _ H); unfold range; apply seq_length |]. intros i Li.
  assert (Hs : nth_error (range n) i = Some i) by (unfold range; rewrite nth_error_nth' with (d := 0%nat) by (rewrite seq_length; exact Li); rewrite seq_nth by exact Li; reflexivity).
  destruct (mapR_nth _ _ _ _ _ H Hs) as (v & Cv & Hv). eauto.
Qed.
Lemma scaled_returned (g : num -> num) m : (forall x, num_times (g x) (num_of_Z 1) = g x) -> forall dims p, num_array dims p ->
  scaled (num_of_Z 1) (returned_cells g m p) = returned_cells g m p.
Proof.
  intros One dims. induction dims as [| n dims IH]; intros p Hp; cbn [num_array] in Hp.
  - destruct Hp as (x & ->). cbn [returned_cells scaled]. rewrite One. reflexivity.
  - destruct Hp as (l & -> & _ & F). cbn [returned_cells scaled]. f_equal. rewrite map_map. apply map_ext_in. intros y J. rewrite Forall_forall in F. exact (IH y (F y J)).
Qed.
Lemma scaled_returned_column (g : num -> num) fill n w : (forall x, num_times (g x) (num_of_Z 1) = g x) -> column fill n w ->
  scaled (num_of_Z 1) (returned g fill w) = returned g fill w.
Proof.
  intros One (_ & Mw & l & Dw & _). unfold returned. rewrite Dw. destruct (miss_num fill w) as [m |] eqn:Em; [| congruence].
  cbn [scaled]. f_equal. rewrite !map_map. apply map_ext. intros x. cbn [scaled]. rewrite One. reflexivity.
Qed.
End Back.

(** A dictionary of two to four dimensions that comes back from its file (C106)
    is converted to as many variables and auxiliary variables as it was made of;
    all of them have their values and missing values, numbers as printed, over
    the axes they had.

    Missing for the whole claim: what is missing from C106; the values of the
    bounded axes must be printed in full and add up ([adds_up], see C56), and the
    numbers in the file must not be changed by the scale factor 1. *)
Theorem C107_partial : forall num (Num : NumOps num) (Ar : ArithOps num) (E : env num) req globals (vars : list (xvar num)) cs c d a axes (o : opts num) g
    (s : settings (num := num)),
  plain_opts o g -> ~ In (lit "file_format_index") (map fst globals) -> ~ In (lit "no_of_nasa_ames_header_lines") (map fst globals) ->
  convert E req globals vars = Ok (Some cs) -> In c cs -> grid_table (e_fill E) c d a axes ->
  length axes = 1%nat \/ (exists l, attr d kNXDEF = PList l /\ rev l = l) ->
  ax_nums a <> [] -> everything s ->
  (forall b x, In b axes -> In x (ax_vals b) -> g x = x) -> Forall (fun b => adds_up (ax_vals b)) axes ->
  (forall x, num_times (g x) (num_of_Z 1) = g x) ->
  forall h, exists file hdr d2 d' ob, write_body o (grid_class axes) false (mkW [] h d) = (Ok tt, mkW file hdr d2) /\ read_file file 0 = Ok (grid_class axes, d') /\
    toXarray s d' = Ok ob /\ length (o_vars ob) = length (c_main c) /\ length (o_aux ob) = length (c_aux c) /\
    exists x xs, ax_vals x = map g (ax_nums a) /\ map ax_vals xs = map ax_vals axes /\
    (forall i w, nth_error (c_main c) i = Some w -> exists v m, nth_error (o_vars ob) i = Some v /\ v_axes v = x :: xs /\
      miss_num (e_fill E) w = Some m /\ v_miss v = Some (PNum m) /\ v_data v = returned_array g (e_fill E) w) /\
    (forall i w, nth_error (c_aux c) i = Some w -> exists v m, nth_error (o_aux ob) i = Some v /\ v_axes v = [x] /\
      miss_num (e_fill E) w = Some m /\ v_miss v = Some (PNum m) /\ v_data v = returned g (e_fill E) w).
Proof.
  intros num Num Ar E req globals vars cs c d a axes o g s Po Nf Nl R I T Pal Na Se Gx Au One h.
  destruct (C106_partial _ _ _ E _ _ _ _ _ _ _ _ _ _ Po Nf Nl R I T Pal h) as (file & hdr & d2 & d' & Wf & Rf & Ks & X & Vs & Vm & V & Aa & Ax & Nm).
  destruct (Nm Gx) as (d3 & N1 & N2 & N3). clear Nm.
  destruct T as (Nd & Lx & Hf & (v & rest & Ev & Va) & La & Pos & _ & Fc & Fa & _ & _).
  assert (If : In (Z.of_nat (1 + length axes) * 1000 + 10)%Z [2010; 3010; 4010]%Z).
  { destruct axes as [| ? [| ? [| ? [| ? ?]]]]; cbn in Lx; try lia; cbn; auto. }
  destruct (converted_axes _ _ _ E _ _ _ _ _ _ _ _ _ Nf R I Ev Nd Hf If) as (Ni & bx & axes' & ents & dx0 & nm0 & Va' & Fe & Cnx & Cnd & _ & Cx & _).
  rewrite Va in Va'. injection Va' as <- <-. rewrite Va in Ni. cbn [length] in Ni.
  assert (Ic : In (grid_class axes) [C2010; C3010; C4010]) by (unfold grid_class; destruct (length axes) as [| [| [| ?]]]; cbn; auto).
  assert (Kni : attr d' kNIV = PInt (Z.of_nat (S (length axes)))) by (rewrite (Ks kNIV) by (cbn; auto); exact Ni).
  assert (Ex : exists ob, toXarray s d' = Ok ob).
  { apply (C63_bounded s file 0 _ d' Rf Ic Se). rewrite X, Cx. cbn [map_nums map]. split.
    - destruct (ax_nums a) as [| x0 xr]; [congruence |]. unfold nums. cbn [map map_nums]. eauto.
    - intros i nx nd l H1 H2 H3. rewrite (Ks kNX), Cnx in H1 by (cbn; auto). rewrite (Ks kNXDEF), Cnd in H2 by (cbn; auto).
      unfold index in H1, H2, H3. cbn [as_list bindR] in H1, H2, H3. unfold nth_res in H1, H2, H3. cbn [nth_error] in H3. rewrite nth_error_map in H1, H2. rewrite map_map, nth_error_map in H3.
      destruct (nth_error axes i) as [b |] eqn:Eb; [| discriminate H1]. destruct (nth_error ents i) as [e |] eqn:Ee; [| discriminate H2]. cbn [option_map of_opt] in H1, H2, H3.
      assert (G : entry_of b e). { clear - Fe Eb Ee. revert i Eb Ee. induction Fe as [| x y l l' P F IH]; intros [| i] A B; try discriminate A; cbn in A, B; [congruence | exact (IH i A B)]. }
      injection H1 as <-. injection H2 as <-. unfold nums in H3. cbn [map_nums] in H3. injection H3 as <-. rewrite !map_length.
      assert (P := nth_error_In _ _ Eb). rewrite Forall_forall in Pos. destruct (Pos b P) as (Tb & Nb). unfold ax_len. destruct G as (G & _).
      split; [destruct (ax_vals b) eqn:Q; [congruence | cbn; lia] |]. intros Q.
      destruct G as [(_ & ->) | (G1 & G2 & _)]; [rewrite (items_num _ Tb), map_length; reflexivity |]. unfold ax_len in G2. rewrite G1 in Q. lia. }
  destruct Ex as [ob Ob]. exists file, hdr, d2, d', ob. split; [exact Wf |]. split; [exact Rf |]. split; [exact Ob |].
  destruct (toXarray_inv _ _ _ Ob) as (ffi & ren & axs & is & js & _ & _ & _ & Hax & Sel & Hv & Ha & _ & Aux).
  destruct (read_file_inv _ _ _ _ Rf) as (h0 & line & Hh & _ & Fr & F & _).
  destruct Se as (Sv & Sa & _). rewrite Sv in Sel. unfold selected_main in Sel.
  destruct (C75_values _ _ _ E _ _ _ _ _ R I) as (dd & es & Nd' & _ & Anv & _). rewrite Nd in Nd'. injection Nd' as <-.
  destruct (C75_auxiliary _ _ _ E _ _ _ _ _ R I) as (dd & fs & ln & lm & ls & lv & Nd' & F' & _ & _ & _ & _ & L1 & L2 & L3 & L4 & Bx). rewrite Nd in Nd'. injection Nd' as <-.
  assert (Z0 : ValuesSpec.described req = 0%nat) by (eapply (no_described E); eauto; intros Q; rewrite Q in If; cbn in If; intuition discriminate).
  rewrite Z0 in Bx. cbn [Nat.add] in Bx.
  rewrite (Ks kNV), Anv in Sel by (cbn; auto 8). cbn [as_int bindR] in Sel. injection Sel as <-.
  destruct (selected_at _ _ _ Hv) as (Lv & Atv). rewrite Nat2Z.id in Lv, Atv. split; [exact Lv |].
  assert (Kn : attr d' kNAUXV = PInt (Z.of_nat (length (c_aux c)))) by (rewrite (Ks kNAUXV) by (cbn; auto 10); exact Bx).
  assert (Ej : js = range (Z.of_nat (length (c_aux c)))).
  { destruct Aux as [(_ & Q) | (Q & ->)].
    - rewrite Sa in Q. unfold selected_aux in Q. rewrite Kn in Q. cbn [as_int bindR] in Q. congruence.
    - specialize (Q _ Kn). destruct (length (c_aux c)); [reflexivity | lia]. }
  subst js. destruct (selected_at _ _ _ Ha) as (Lj & Atj). rewrite Nat2Z.id in Lj, Atj. split; [exact Lj |].
  assert (Nc : attr d' kNAUXC = PNone).
  { unfold attr. rewrite Fr by (cbn; intuition discriminate). assert (Q := hr_aux _ _ _ _ Hh).
    assert (Q' : h0 kNAUXC = None) by (destruct Ic as [Ei | [Ei | [Ei | []]]]; rewrite <- Ei in Q; exact (proj2 Q)). rewrite Q'. reflexivity. }
  unfold convertAxes in Hax. rewrite Kni in Hax. cbn [as_int bindR] in Hax. replace (0 <? Z.of_nat (S (length axes)))%Z with true in Hax by (symmetry; apply Z.ltb_lt; lia).
  rewrite (normalized_bounded _ d' Ic F), N1 in Hax. cbn [bindR] in Hax. bindE Hax r Hr. destruct r as [as0 k0]. cbn [fst] in Hax. injection Hax as ->.
  assert (Kn3 : attr d3 kNIV = PInt (Z.of_nat (S (length axes)))).
  { rewrite <- Kni. unfold normalizeIndVars_2010 in N1. rewrite Kni in N1. cbn [as_int bindR] in N1. unfold range in N1. destruct (NormalizeProps.normalize_loop _ _ _ _ N1) as (_ & B & _).
    unfold attr. rewrite B by discriminate. reflexivity. }
  unfold range in Hr. rewrite Nat2Z.id in Hr.
  destruct (axes_loop_vals _ _ d3 _ Kn3 ltac:(apply Z.eqb_neq; lia) _ _ _ _ _ _ Hr) as (as' & Q & L & Hx). cbn [app] in Q. subst as'.
  destruct axs as [| x xs]; [discriminate L |]. cbn [length] in L. exists x, xs.
  split. { destruct (Hx 0%nat x eq_refl) as (vx & Q1 & Q2). cbn [Nat.add] in Q1. rewrite N2, X, Cx in Q1. cbn in Q1. injection Q1 as <-.
    rewrite map_map in Q2. change (map (fun y => map_nums g (PNum y)) (ax_nums a)) with (map (fun y => PNum (g y)) (ax_nums a)) in Q2. rewrite <- (map_map g (fun y => PNum y)) in Q2. rewrite nums_of_map in Q2. congruence. }
  split. { clear - Hx N3 Au L. assert (L' : length xs = length axes) by lia. clear L.
    assert (K : forall i b y, nth_error axes i = Some b -> nth_error xs i = Some y -> ax_vals y = ax_vals b).
    { intros i b y Eb Ey. destruct (Hx (S i) y Ey) as (vx & Q1 & Q2). cbn [Nat.add] in Q1. rewrite Forall_forall in Au. rewrite (N3 i b Eb (Au b (nth_error_In _ _ Eb))) in Q1.
      injection Q1 as <-. rewrite nums_of_map in Q2. congruence. }
    clear - K L'. revert xs L' K. induction axes as [| b axes IH]; intros [| y xs] L' K; try discriminate L'; [reflexivity |]. cbn [map]. f_equal.
    - exact (K 0%nat b y eq_refl eq_refl).
    - apply IH; [cbn in L'; lia |]. intros i b' y' E1 E2. exact (K (S i) b' y' E1 E2). }
  split.
  - intros i w Hi. assert (Li : (i < length (c_main c))%nat) by (apply nth_error_Some; congruence). destruct (Atv i Li) as (u & Eu & Cu). assert (Iw := nth_error_In _ _ Hi).
    rewrite Forall_forall in Fc. destruct (Fc w Iw) as (_ & Mw & Dw). destruct (miss_num (e_fill E) w) as [m |] eqn:Em; [| congruence].
    destruct (main_inv _ _ _ _ _ _ Cu) as (miss & scal & vals & M1 & (sv & M2 & M3) & M4 & M5 & M6 & M7 & _).
    rewrite Vm in M1. rewrite Vs in M2. rewrite V in M4. unfold index in M1, M2, M4. cbn [as_list bindR] in M1, M2, M4. unfold nth_res in M1, M2, M4.
    rewrite nth_error_map, Hi in M1, M2, M4. cbn [option_map of_opt] in M1, M2, M4. rewrite Em in M1. injection M1 as <-. injection M2 as <-. injection M4 as <-.
    assert (scal = num_of_Z 1) as -> by (destruct M3 as [Q | (z & Q & _)]; [congruence | discriminate Q]).
    exists u, m. split; [exact Eu |]. split; [exact M7 |]. split; [reflexivity |]. split; [exact M5 |]. rewrite M6. unfold returned_array. rewrite Em. exact (scaled_returned g m One _ _ Dw).
  - intros i w Hi. assert (Li : (i < length (c_aux c))%nat) by (apply nth_error_Some; congruence). destruct (Atj i Li) as (u & Eu & Cu). assert (Iw := nth_error_In _ _ Hi).
    destruct Ax as (_ & As & Am); [intros Q; rewrite Q in Iw; destruct Iw |].
    rewrite Forall_forall in Fa. assert (Cw := Fa w Iw). assert (Cw' := Cw). destruct Cw' as (_ & Mw & _). destruct (miss_num (e_fill E) w) as [m |] eqn:Em; [| congruence].
    destruct (aux_inv _ _ _ _ _ _ Nc Cu) as (miss & scal & vals & M1 & (sv & M2 & M3) & M4 & M5 & M6 & M7 & _).
    rewrite Am in M1. rewrite As in M2. rewrite Aa in M4. unfold index in M1, M2, M4. cbn [as_list bindR] in M1, M2, M4. unfold nth_res in M1, M2, M4.
    rewrite nth_error_map, Hi in M1, M2, M4. cbn [option_map of_opt] in M1, M2, M4. rewrite Em in M1. injection M1 as <-. injection M2 as <-. injection M4 as <-.
    assert (scal = num_of_Z 1) as -> by (destruct M3 as [Q | (z & Q & _)]; [congruence | discriminate Q]).
    exists u, m. split; [exact Eu |]. split; [exact M7 |]. split; [reflexivity |]. split; [exact M5 |]. rewrite M6. exact (scaled_returned_column g _ _ w One Cw).
Qed.
Print Assumptions C107_partial.

(** ** Examples *)
Definition grid_back (k : cls) (v : xvar wnan) : Res (list (list (list wnan) * pyv wnan * option (pyv wnan))) :=
  match only v with
  | Ok (Some [c]) => match c_na c with
     | Some d => match write_body opts_wnan k false (mkW [] [] d) with
         | (Ok tt, w) => (do p <- read_file (w_file w) 0; do ob <- toXarray settings_w (snd p);
                          Ok (map (fun v => (map ax_vals (v_axes v), v_data v, Xarray.v_miss v)) (o_vars ob)))%res
         | (Err e, _) => Err e end
     | None => Err EUnmodelled end
  | Ok _ => Err EUnmodelled
  | Err e => Err e
  end.
Example C107_example : grid_back C2010 gw =
    Ok [([ws [10; 20; 40]; ws [1; 2]], rows [[1; 2]; [-99; 4]; [5; 6]], Some (PNum (Num (Whole (-99)))))]%Z /\
  grid_back C3010 cube = Ok [(map ax_vals (v_axes cube), v_data cube, Some (PNum (Num (Whole (-99)))))]%Z.
Proof. split; vm_compute; reflexivity. Qed.
Lemma wnan_adds_up (l : list Z) : adds_up (ws l).
Proof.
  intros i x y e Hx Hy Q. unfold ws in Hx, Hy. rewrite nth_error_map in Hx, Hy.
  destruct (nth_error l i) as [p |]; [| discriminate Hx]. destruct (nth_error l (S i)) as [q |]; [| discriminate Hy]. cbn in Hx, Hy. injection Hx as <-. injection Hy as <-.
  destruct e as [[z] |]; [| discriminate Q]. cbn in Q |- *. apply Z.eqb_eq in Q. do 2 f_equal. lia.
Qed.
(** The conditions of the theorem beyond those of C106 hold of both variables. *)
Example C107_conditions : everything settings_w /\ ax_nums tw <> [] /\ ax_nums (zw (lit "t") [10]%Z) <> [] /\
  Forall (fun b => adds_up (ax_vals b)) [zw (lit "y") [1; 2; 3; 4]%Z; zw (lit "z") [1; 2; 4]%Z; zw (lit "z") [1; 2]%Z] /\ (forall x : wnan, num_times x (num_of_Z 1) = x).
Proof.
  split; [repeat split; left; reflexivity |]. split; [discriminate |]. split; [discriminate |]. split; [repeat constructor; apply wnan_adds_up |].
  intros [[z] |]; [| reflexivity]. cbn. do 2 f_equal. lia.
Qed.
(** Three latitudes and two levels do not come back. *)
Theorem C107_refuted : exists (v : xvar wnan), v_axes v = [zw (lit "t") [10]%Z; zw (lit "y") [1; 2; 3]%Z; zw (lit "z") [1; 2]%Z] /\
  num_array [1; 3; 2]%nat (v_data v) /\ grid_back C3010 v = Err EValueError.
Proof.
  exists slab. split; [reflexivity |]. split; [| vm_compute; reflexivity]. repeat first [split; [reflexivity |] | eexists | constructor]; reflexivity.
Qed.
Print Assumptions C107_refuted.
