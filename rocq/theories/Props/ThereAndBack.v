(** C92 and C93: xarray variables that go through a NASA Ames file. *)
From Coq Require Import List NArith ZArith Bool Lia.
From Verif Require Import Py.Str Py.Res Py.Num Py.Arith Model.Dict Model.CommonUtils Model.Utils Model.NAWrite Model.NARead Model.NACore Spec.TextSpec Spec.Records
  Spec.RoundTripSpec Model.Xarray Model.Collector Model.ToXarray Spec.ValuesSpec Spec.CollectorSpec Spec.NcRoundTripSpec Spec.ToXarraySpec Spec.BackSpec
  Spec.WholeNum Spec.Binary64 Proofs.StrLemmas Proofs.ReadFrame Proofs.ReadFile Proofs.NumLemmas Proofs.CollectorLemmas Props.CoreProps Props.RoundTrip Props.CollectorProps
  Props.AxisProps Props.ValuesProps Props.NcRoundTrip Props.ToXarrayProps Props.ToXarrayMore Proofs.Convertible Props.ConvertibleProps.
Import ListNotations.

Section Names.
Context {num : Type} {Num : NumOps num} {Ar : ArithOps num}.
Local Notation named := (named num).

Lemma called_first (i : named) n : called i n -> first_name i = Ok n.
Proof.
  unfold called, first_name. cbv zeta. intros [-> | (-> & [-> | (-> & [-> | (-> & <-)])])]; try reflexivity;
    destruct (n_attr i (lit "standard_name")), (n_attr i (lit "title")); reflexivity.
Qed.
Lemma measured_units (i : named) u : measured_in i u -> strip u = u -> units_of i = Ok u.
Proof.
  unfold measured_in, units_of. intros (Nu & H) S.
  destruct H as [-> | ([-> | ->] & <-)]; cbn [text_of g_val gstr bindR is_nil].
  - destruct u; [congruence|]. cbn [is_nil]. now rewrite S.
  - now rewrite S.
  - now rewrite S.
Qed.
(** At most one occurrence of a text that starts with a parenthesis. *)
Lemma count_none p s : ~ In c_lpar s -> forall k, count_aux (c_lpar :: p) s k = 0%nat.
Proof.
  intros N. induction s as [|c t IH]; intros k; [destruct k; reflexivity|].
  assert (Nt : ~ In c_lpar t) by (intros Q; apply N; right; exact Q). cbn [count_aux]. destruct k; [|auto].
  replace (starts_with (c_lpar :: p) (c :: t)) with false; [auto|]. symmetry. cbn [starts_with].
  destruct (N.eqb_spec c_lpar c) as [Q|Q]; [exfalso; apply N; left; congruence|reflexivity].
Qed.
Lemma count_one p s t : ~ In c_lpar s -> ~ In c_lpar t -> (count_aux (c_lpar :: p) (s ++ c_lpar :: t) 0 <= 1)%nat.
Proof.
  intros N Nt. induction s as [|c s IH]; cbn [app count_aux].
  - destruct (starts_with _ _); rewrite count_none by exact Nt; lia.
  - replace (starts_with (c_lpar :: p) (c :: s ++ c_lpar :: t)) with false.
    + apply IH. intros Q. apply N. right. exact Q.
    + symmetry. cbn [starts_with]. destruct (N.eqb_spec c_lpar c) as [Q|Q]; [exfalso; apply N; left; congruence|reflexivity].
Qed.
Lemma last_two (s : str) : (2 <= length s)%nat -> exists p x y, s = p ++ [x; y].
Proof.
  intros L. destruct (rev s) as [|y [|x r]] eqn:E; try (apply (f_equal (@length _)) in E; rewrite rev_length in E; cbn in E; lia).
  exists (rev r), x, y. rewrite <- (rev_involutive s), E. cbn. now rewrite <- app_assoc.
Qed.
Lemma slice_last_two (p : str) x y : slice_from (p ++ [x; y]) (-2)%Z = [x; y].
Proof.
  unfold slice_from. cbv zeta. rewrite app_length. cbn [length]. change (-2 <? 0)%Z with true. cbn iota.
  replace (Z.to_nat _) with (length p) by lia. rewrite skipn_app, skipn_all, Nat.sub_diag. reflexivity.
Qed.
Lemma not_parens (p : str) x y : x <> c_lpar -> str_eqb (slice_from (p ++ [x; y]) (-2)%Z) (lit "()") = false.
Proof. intros N. rewrite slice_last_two. apply str_eqb_false. intros Q. injection Q as Q _. contradiction. Qed.
Lemma best_with_units (i : named) n u : called i n -> measured_in i u -> n <> [] -> no_parentheses n -> no_parentheses u -> strip u = u ->
  getBestName i = Ok (n ++ lit " " ++ [c_lpar] ++ u ++ [c_rpar]).
Proof.
  intros C M Nn (N1 & N2 & N3) (U1 & U2 & U3) S. unfold getBestName. rewrite (called_first _ _ C). cbn [bindR].
  destruct n as [|n0 n]; [congruence|]. cbn [is_nil]. rewrite (measured_units _ _ M S). cbn [bindR]. cbv zeta.
  destruct M as (Nu & _). destruct u as [|u0 u]; [congruence|]. cbn [is_nil].
  assert (C1 : (1 <? count_str ([c_lpar] ++ (u0 :: u) ++ [c_rpar]) ((n0 :: n) ++ lit " " ++ [c_lpar] ++ (u0 :: u) ++ [c_rpar]))%nat = false).
  { apply Nat.ltb_ge. unfold count_str. rewrite (app_assoc (n0 :: n)). cbn [app]. change (?a ++ c_lpar :: ?b) with (a ++ c_lpar :: b).
    apply (count_one _ ((n0 :: n) ++ lit " ") (u0 :: u ++ [c_rpar])).
    - intros Q. apply in_app_or in Q as [Q|Q]; [contradiction|]. cbn in Q. destruct Q as [Q|[]]. discriminate Q.
    - intros Q. change (u0 :: u ++ [c_rpar]) with ((u0 :: u) ++ [c_rpar]) in Q. apply in_app_or in Q as [Q|Q]; [contradiction|]. destruct Q as [Q|[]]. discriminate Q. }
  rewrite C1.
  destruct (@exists_last _ (u0 :: u)) as (up & ul & Eu); [discriminate|].
  assert (Hl : ul <> c_lpar) by (intros ->; apply U1; rewrite Eu; apply in_or_app; right; left; reflexivity).
  assert (En : (n0 :: n) ++ lit " " ++ [c_lpar] ++ (u0 :: u) ++ [c_rpar] = ((n0 :: n) ++ lit " " ++ [c_lpar] ++ up) ++ [ul; c_rpar]).
  { rewrite Eu, <- !app_assoc. reflexivity. }
  rewrite En at 1. rewrite not_parens by exact Hl. reflexivity.
Qed.
End Names.

(** ** C93 *)
(** Variables that are called [n] and measured in [u] have the name "n (u)" in a
    NASA Ames file, and the converter takes it apart again. *)
Theorem C93_name_of_file : forall num (i : named num) n u, called i n -> measured_in i u -> n <> [] ->
  no_parentheses n -> no_parentheses u -> strip u = u ->
  getBestName i = Ok (n ++ lit " (" ++ u ++ lit ")") /\ attemptVarAndUnitsMatch None (n ++ lit " (" ++ u ++ lit ")") = (strip n, Some u).
Proof.
  intros num i n u C M Nn Pn Pu S. assert (B := best_with_units i n u C M Nn Pn Pu S).
  assert (Q : n ++ lit " (" ++ u ++ lit ")" = [] ++ (n ++ lit " ") ++ [c_lpar] ++ u ++ [c_rpar] ++ []).
  { rewrite app_nil_r, <- app_assoc. reflexivity. }
  split; [exact B|]. rewrite Q. destruct Pn as (N1 & N2 & N3), Pu as (U1 & U2 & U3), M as (Nu & _).
  rewrite C35_name_and_units; [|constructor|constructor|split| split; assumption |exact Nu| |exact U3];
    try (intros K; apply in_app_or in K as [K|K]; [contradiction|]; cbn in K; destruct K as [K|[]]; discriminate K).
  f_equal. apply strip_app_sp. reflexivity.
Qed.

(** ** C92 *)
Section Back.
Context {num : Type} {Num : NumOps num} {Ar : ArithOps num}.
Lemma axis_vals callback warning (d : na num) i k a k' : attr d kNIV = PInt 1 ->
  convertAxis callback warning d i k = Ok (a, k') -> nums_of (attr d kX) = Ok (ax_vals a).
Proof.
  intros Hn E. unfold convertAxis in E. rewrite Hn in E. cbn [as_int bindR] in E. change (1 =? 1)%Z with true in E. cbn iota in E. cbn [bindR] in E. bindE E vals Hw.
  bindE E xn Hxn. bindE E ln Hln. destruct (attemptVarAndUnitsMatch callback ln) as [name units].
  destruct (axis_type _) as [[t u]|];
  (destruct (is_nil vals) eqn:En; [discriminate|]; bindE E r Hr; destruct r as [[at1 enc] k1]; injection E as <- _; rewrite Hw; reflexivity).
Qed.
Lemma nums_of_map (l : list num) : nums_of (PList (map PNum l)) = Ok l.
Proof.
  cbn [nums_of]. induction l as [|x l IH]; [reflexivity|]. cbn [map mapR bindR]. rewrite IH. reflexivity.
Qed.
(** The variables of a table and those that are made of its file. *)
Lemma back_inv (s : settings (num := num)) file d' ob : everything s -> read_file file 0 = Ok (C1001, d') -> toXarray s d' = Ok ob ->
  forall nv l, attr d' kVNAME = PList l -> length l = nv -> forall xs, attr d' kX = PList (map PNum xs) ->
  o_aux ob = [] /\ length (o_vars ob) = nv /\ exists x, ax_vals x = xs /\
  forall i v, nth_error (o_vars ob) i = Some v -> v_axes v = [x] /\
    convertMain (t_callback s) (dict_of_list (map (fun p => (lower (fst p), snd p)) (t_rename s))) d' [x] i = Ok v.
Proof.
  intros (Sv & Sa & _) R X nv l Hl Ll xs Hx. destruct (toXarray_inv _ _ _ X) as (ffi & ren & axes & is & js & _ & _ & _ & Ax & Sel & Hv & Ha & -> & Aux).
  destruct (read_file_inv _ _ _ _ R) as (h & line & Hh & D & Fr & F & V). change (cls_ffi C1001 / 1000)%Z with 1%Z in V.
  assert (Hc1 : attr d' kNAUXV = PNone). { unfold attr. rewrite Fr by (cbn; intuition discriminate). destruct (hr_aux _ _ _ _ Hh) as [-> _]. reflexivity. }
  assert (Nv : exists z, attr d' kNV = PInt z /\ length l = Z.to_nat z).
  { destruct (hr_vars _ _ _ _ Hh) as (z & vs & vm & vn & Rv). exists z. pose proof (vr_nv _ _ _ _ _ Rv) as Q1. pose proof (vr_name _ _ _ _ _ Rv) as Q2. pose proof (vr_ln _ _ _ _ _ Rv) as Q3.
    unfold attr in Hl |- *. rewrite Fr, Q2 in Hl by (cbn; intuition discriminate). rewrite Fr, Q1 by (cbn; intuition discriminate). split; [reflexivity|congruence]. }
  destruct Nv as (z & Nz & Lz). rewrite Sv in Sel. unfold selected_main in Sel. rewrite Nz in Sel. cbn [as_int bindR] in Sel. injection Sel as <-.
  split. { destruct Aux as [((n & Q & _) & _) | (_ & ->)]; [rewrite Hc1 in Q; discriminate Q|]. cbn in Ha. congruence. }
  split. { rewrite (mapR_length _ _ _ Hv). unfold range. rewrite seq_length. congruence. }
  unfold convertAxes in Ax. rewrite V in Ax. cbn [as_int bindR] in Ax. change (0 <? 1)%Z with true in Ax. cbn iota in Ax. unfold normalized in Ax. rewrite F in Ax.
  cbn [as_int bindR cls_ffi] in Ax. change (1001 =? 1020)%Z with false in Ax. change (existsb (Z.eqb 1001) [2010; 3010; 4010]%Z) with false in Ax. cbn iota in Ax. cbn [bindR] in Ax.
  change (range 1) with [0%nat] in Ax. cbn [forR fst snd] in Ax.
  destruct (convertAxis _ _ d' 0 _) as [[x k']|] eqn:E; cbn [bindR fst snd] in Ax; [|discriminate]. injection Ax as <-.
  exists x. split. { apply axis_vals in E; [|exact V]. rewrite Hx, nums_of_map in E. congruence. }
  intros i v Hi. assert (Li : (i < Z.to_nat z)%nat).
  { assert (i < length (o_vars ob))%nat by (apply nth_error_Some; congruence). rewrite (mapR_length _ _ _ Hv) in *. unfold range in *. rewrite seq_length in *. assumption. }
  assert (Hs : nth_error (range z) i = Some i).
  { unfold range. rewrite nth_error_nth' with (d := 0%nat) by (rewrite seq_length; exact Li). rewrite seq_nth by exact Li. reflexivity. }
  destruct (mapR_nth _ _ _ _ _ Hv Hs) as (v' & Cv & Hv'). rewrite Hi in Hv'. injection Hv' as <-. cbn [app] in Cv. split; [|exact Cv].
  destruct (main_inv _ _ _ _ _ _ Cv) as (? & ? & ? & _ & _ & _ & _ & _ & Q & _). exact Q.
Qed.
End Back.

(** Where every variable of a dictionary of format 1001 is a column of numbers
    and the header can be written, the file is converted to as many variables; a
    variable comes back with its axis and its values, numbers as printed, and with
    its missing value.

    Missing for the whole claim: what is missing from C78; the numbers in the
    file must not be changed by the scale factor 1. *)
Theorem C92_partial : forall num (Num : NumOps num) (Ar : ArithOps num) (E : env num) req globals (vars : list (xvar num)) cs c d a (o : opts num) g
    (s : settings (num := num)),
  plain_opts o g -> ~ In (lit "file_format_index") (map fst globals) -> ~ In (lit "no_of_nasa_ames_header_lines") (map fst globals) ->
  convert E req globals vars = Ok (Some cs) -> In c cs -> table (e_fill E) c d a -> ax_nums a <> [] ->
  everything s ->
  (forall w l x, In w (c_main c) -> returned g (e_fill E) w = PList l -> In (PNum x) l -> num_times x (num_of_Z 1) = x) ->
  forall h, exists file hdr d2 d' ob, write_body o C1001 false (mkW [] h d) = (Ok tt, mkW file hdr d2) /\ read_file file 0 = Ok (C1001, d') /\
    toXarray s d' = Ok ob /\ o_aux ob = [] /\ length (o_vars ob) = length (c_main c) /\
    exists x, ax_vals x = map g (ax_nums a) /\
    forall i w, nth_error (c_main c) i = Some w -> exists v m, nth_error (o_vars ob) i = Some v /\ v_axes v = [x] /\
      miss_num (e_fill E) w = Some m /\ v_miss v = Some (PNum m) /\ v_data v = returned g (e_fill E) w.
Proof.
  intros num Num Ar E req globals vars cs c d a o g s Po Nf Nl R I T Na Se One h.
  destruct (C78_partial _ _ _ E _ _ _ _ _ _ _ _ _ Po Nf Nl R I T h) as (file & hdr & d2 & d' & Wf & Rf & X & Xn & Vn & Vs & Vm & V).
  exists file, hdr, d2, d'.
  assert (Ex : exists ob, toXarray s d' = Ok ob).
  { apply (C63_plain s file 0 C1001 d' Rf); [left; reflexivity|exact Se|]. rewrite X. destruct (ax_nums a); [congruence|]. cbn [map]. eauto. }
  destruct Ex as [ob Ob]. exists ob. split; [exact Wf|]. split; [exact Rf|]. split; [exact Ob|].
  assert (Ln : exists l, attr d' kVNAME = PList l /\ length l = length (c_main c)).
  { destruct (C75_values _ _ _ E _ _ _ _ _ R I) as (dd & es & Nd & F & _ & An & _). destruct T as (Nd' & _). rewrite Nd' in Nd. injection Nd as <-.
    exists (names es). rewrite Vn. split; [exact An|]. unfold names. rewrite map_length. clear - F. induction F; cbn; congruence. }
  destruct Ln as (l & Hl & Ll).
  destruct (back_inv s file d' ob Se Rf Ob _ l Hl Ll (map g (ax_nums a))) as (A1 & A2 & x & A3 & A4); [rewrite X, map_map; reflexivity|].
  split; [exact A1|]. split; [exact A2|]. exists x. split; [exact A3|]. intros i w Hi.
  destruct (nth_error (o_vars ob) i) as [v|] eqn:Ev; [|exfalso; apply nth_error_None in Ev; assert (i < length (c_main c))%nat by (apply nth_error_Some; congruence); lia].
  destruct (A4 i v Ev) as (B1 & B2). destruct (main_inv _ _ _ _ _ _ B2) as (miss & scal & vals & M1 & (sv & M2 & M3) & M4 & M5 & M6 & _).
  rewrite Vm in M1. rewrite Vs in M2. rewrite V in M4. unfold index in M1, M2, M4. cbn [as_list bindR] in M1, M2, M4. unfold nth_res in M1, M2, M4.
  rewrite nth_error_map, Hi in M1, M2, M4. cbn [option_map of_opt] in M1, M2, M4. injection M2 as <-. injection M4 as <-.
  assert (scal = num_of_Z 1) as -> by (destruct M3 as [Q | (z & Q & _)]; [congruence|discriminate Q]).
  assert (Iw := nth_error_In _ _ Hi).
  destruct T as (_ & _ & _ & _ & _ & Fc & _). rewrite Forall_forall in Fc. destruct (Fc w Iw) as (_ & Mw & lw & Dw & _).
  destruct (miss_num (e_fill E) w) as [m|] eqn:Em; [|congruence]. injection M1 as <-.
  exists v, m. split; [reflexivity|]. split; [exact B1|]. split; [reflexivity|]. split; [exact M5|]. rewrite M6.
  destruct (returned g (e_fill E) w) as [| | | | rl] eqn:Er; try (unfold returned in Er; rewrite Dw, Em in Er; discriminate Er).
  cbn [scaled]. f_equal. assert (One' := fun y => One w rl y Iw Er). unfold returned in Er. rewrite Dw, Em in Er. assert (Er' : rl = map (fun y => PNum (g (if num_isnan y then m else y))) lw).
  { rewrite map_map in Er. injection Er as <-. reflexivity. }
  clear - One' Er'. rewrite <- (map_id rl) at 2. apply map_ext_in. intros y J. assert (exists z, y = PNum z) as [z ->].
  { rewrite Er' in J. apply in_map_iff in J as (z & <- & _). eauto. }
  cbn [scaled]. now rewrite One'.
Qed.

(** The whole way, from variables to variables. *)
Definition there_and_back {num} `{NumOps num} `{ArithOps num} (E : env num) (o : opts num) (s : settings (num := num)) (globals : list (str * gval num)) (vars : list (xvar num)) :
    Res (objects (num := num)) :=
  match convert E None globals vars with
  | Ok (Some [c]) => match c_na c with
     | Some d => match write_body o C1001 false (mkW [] [] d) with
         | (Ok tt, w) => (do p <- read_file (w_file w) 0; toXarray s (snd p))%res
         | (Err e, _) => Err e end
     | None => Err EUnmodelled end
  | Ok _ => Err EUnmodelled
  | Err e => Err e
  end.
Definition seen {num} (r : Res (objects (num := num))) : Res (list (str * list (list num) * pyv num * option (pyv num))) :=
  (do ob <- r; Ok (map (fun v => (v_name v, map ax_vals (v_axes v), v_data v, v_miss v)) (o_vars ob)))%res.
Definition rb : xvar b64 := bvar (lit "r") [tb] (bdata [bf "4"; bf "5"; bf "6"]) (Some (PNum (bf "-1"))).
(** Two variables in floating point numbers. *)
Example C92_example : seen (there_and_back env_b opts_b64 plain_settings (gl (lit "Test")) [qb None; rb]) =
  Ok [(lit "q", [[bf "10"; bf "20"; bf "40"]], bdata [bf "1.5"; bf "-9999999999"; bf "0.3333333333"], Some (PNum (bf "-9999999999")));
      (lit "r", [[bf "10"; bf "20"; bf "40"]], bdata [bf "4"; bf "5"; bf "6"], Some (PNum (bf "-1")))].
Proof. vm_compute. reflexivity. Qed.
(** The conditions of the theorem, with the variable of [C78_conditions]. *)
Definition settings_w : settings (num := wnan) := mkSet SAll SAll [] None false [] [] None (lit "2024-01-01 00:00:00") (lit "2.0").
Example C92_conditions : exists cs c d, convert env_w None (gl (lit "Test")) [qw] = Ok (Some cs) /\ In c cs /\ table (e_fill env_w) c d tw /\
  plain_opts opts_wnan (fun x => x) /\ ax_nums tw <> [] /\ everything settings_w /\ forall x : wnan, num_times x (num_of_Z 1) = x.
Proof.
  destruct C78_conditions as (cs & c & d & A & B & C). exists cs, c, d. split; [exact A|]. split; [exact B|]. split; [exact C|]. split; [exact plain_wnan|].
  split; [discriminate|]. split; [repeat split; left; reflexivity|]. intros [[z]|]; [|reflexivity]. cbn. do 2 f_equal. lia.
Qed.
(** A variable without values is written to a file that cannot be converted. *)
Theorem C92_refuted : exists (vars : list (xvar b64)), vars = [bvar (lit "q") [axb (lit "t") []] (bdata []) None] /\
  there_and_back env_b opts_b64 plain_settings (gl (lit "Test")) vars = Err EIndexError.
Proof. eexists. split; [reflexivity|]. vm_compute. reflexivity. Qed.

(** ** C93, the whole way *)
Lemma identifier_facts n : identifier n -> strip n = n /\ sub_unsafe false n = n /\ no_parentheses n /\ safe_name n = n.
Proof.
  intros (Nn & L & Lo & F).
  assert (Sp : forall c, In c n -> is_space c = false).
  { intros c I. destruct (is_space c) eqn:Q; [|reflexivity]. destruct (F c I). left. exact Q. }
  assert (St : forall c, In c n -> ~ In c (lit "/[()]=+-?#~@&$%!*{}^")).
  { intros c I Q. destruct (F c I). right. exact Q. }
  split; [|split; [|split]].
  - destruct (strip_decomp n) as (a & b & A & B & Q & _). assert (a = []) as ->.
    { destruct a as [|x a]; [reflexivity|]. cbn in A. rewrite (Sp x) in A by (rewrite Q; left; reflexivity). discriminate A. }
    assert (b = []) as ->.
    { destruct b as [|x b]; [reflexivity|]. cbn in B. rewrite (Sp x) in B by (rewrite Q; apply in_or_app; right; apply in_or_app; right; left; reflexivity). discriminate B. }
    rewrite app_nil_r in Q. cbn in Q. congruence.
  - clear - F. induction n as [|c n IH]; [reflexivity|]. cbn [sub_unsafe]. destruct (unsafe c) eqn:U.
    + destruct (F c); [left; reflexivity|]. apply unsafe_iff, U.
    + f_equal. apply IH. intros x I. apply F. right. exact I.
  - repeat split; intros Q; [apply (St _ Q) | apply (St _ Q) | specialize (Sp _ Q); discriminate Sp]; vm_compute; tauto.
  - unfold safe_name. rewrite Lo. apply replace_none; [|discriminate]. intros c [<-|[]] I. specialize (Sp _ I). discriminate Sp.
Qed.
(** Names and units of the variables that come back.  Missing for the whole
    claim: what is missing from C92; the name must have no signs that NetCDF does
    not allow and no capitals, and the units no parentheses. *)
Theorem C93_partial : forall num (Num : NumOps num) (Ar : ArithOps num) (E : env num) req globals (vars : list (xvar num)) cs c d a (o : opts num) g
    (s : settings (num := num)) h file hdr d2 d' ob,
  plain_opts o g -> ~ In (lit "file_format_index") (map fst globals) -> ~ In (lit "no_of_nasa_ames_header_lines") (map fst globals) ->
  convert E req globals vars = Ok (Some cs) -> In c cs -> table (e_fill E) c d a ->
  everything s -> t_callback s = None -> t_rename s = [] ->
  write_body o C1001 false (mkW [] h d) = (Ok tt, mkW file hdr d2) -> read_file file 0 = Ok (C1001, d') -> toXarray s d' = Ok ob ->
  forall i w v n u, nth_error (c_main c) i = Some w -> nth_error (o_vars ob) i = Some v ->
    called (v_info w) n -> measured_in (v_info w) u -> n <> [] -> no_parentheses n -> no_parentheses u -> strip u = u ->
    n_attr (v_info v) (lit "units") = Some (gstr u) /\
    (identifier n -> v_name v = n /\ n_attr (v_info v) (lit "long_name") = Some (gstr n)).
Proof.
  intros num Num Ar E req globals vars cs c d a o g s h file hdr d2 d' ob Po Nf Nl R I T Se Sc Sr Wf Rf Ob i w v n u Hi Hv Cn Mu Nn Pn Pu Su.
  destruct (C78_partial _ _ _ E _ _ _ _ _ _ _ _ _ Po Nf Nl R I T h) as (file1 & hdr1 & d21 & d1 & Wf1 & Rf1 & X & _ & Vn & _).
  rewrite Wf in Wf1. injection Wf1 as <- <- <-. rewrite Rf in Rf1. injection Rf1 as <-.
  destruct (C75_values _ _ _ E _ _ _ _ _ R I) as (dd & es & Nd & F & _ & An & _). destruct T as (Nd' & _). rewrite Nd' in Nd. injection Nd as <-.
  rewrite An in Vn. assert (Ln : length (names es) = length (c_main c)) by (unfold names; rewrite map_length; clear - F; induction F; cbn; congruence).
  destruct (back_inv s file d' ob Se Rf Ob _ _ Vn Ln (map g (ax_nums a))) as (_ & _ & x & _ & A4); [rewrite X, map_map; reflexivity|].
  destruct (A4 i v Hv) as (_ & B). rewrite Sc, Sr in B. cbn [map] in B. unfold convertMain in B.
  destruct (convertVariable_inv _ _ _ _ _ _ _ _ _ B) as (wi & vals & scal & Gi & _ & _ & _ & _ & _ & _ & _ & _ & Q);
    try (intros Q; vm_compute in Q; discriminate Q).
  destruct (C93_name_of_file _ _ _ _ Cn Mu Nn Pn Pu Su) as (Best & Split).
  assert (In1 : index (attr d' kVNAME) i = Ok (PStr (n ++ lit " (" ++ u ++ lit ")"))).
  { rewrite Vn. unfold index. cbn [as_list bindR]. unfold nth_res, names. rewrite nth_error_map.
    assert (Ee : exists e, nth_error es i = Some e /\ entry_for (e_fill E) w e).
    { clear - F Hi. revert i Hi. induction F as [|v e vs es He F IH]; intros [|i] Hi; cbn in Hi |- *; try discriminate Hi; [injection Hi as <-; eauto|]. apply IH, Hi. }
    destruct Ee as (e & -> & He). cbn [option_map of_opt]. destruct e as [[[nm m] sc] vl]. destruct He as ((s0 & Hs & ->) & _). rewrite Best in Hs. injection Hs as <-. reflexivity. }
  unfold getVariable, name_of in Gi. rewrite In1 in Gi. cbn [bindR as_str] in Gi. rewrite Split in Gi. cbn [bindR fst snd] in Gi. bindE Gi m Hm. bindE Gi sc Hsc. injection Gi as <-.
  cbn [i_name i_units] in Q. cbv zeta in Q. change (dict_of_list (@nil (str * str))) with (@nil (str * str)) in Q. cbn [lookup] in Q. destruct Q as (Q1 & Q2 & Q3).
  split; [destruct Mu as (Nu & _); destruct u; [congruence|exact Q3]|].
  intros Id. destruct (identifier_facts n Id) as (St & Sub & _ & Safe). destruct Id as (_ & L & Lo & _).
  rewrite St in Q1, Q2. unfold nc_name in Q1, Q2. apply Nat.ltb_lt in L. rewrite L, Sub, Lo in Q1, Q2. rewrite Safe in Q1. split; assumption.
Qed.
Definition named_b (name : str) (attrs : list (str * str)) : xvar b64 :=
  mkVar (mkNamed name (map (fun p => (fst p, gstr (snd p))) attrs) []) [tb] (bdata [bf "1"; bf "2"; bf "3"]) None None.
Definition texts (r : Res (objects (num := b64))) : Res (list (str * option (gval b64) * option (gval b64))) :=
  (do ob <- r; Ok (map (fun v => (v_name v, n_attr (v_info v) (lit "long_name"), n_attr (v_info v) (lit "units"))) (o_vars ob)))%res.
Example C93_example : texts (there_and_back env_b opts_b64 plain_settings (gl (lit "Test"))
    [named_b (lit "T") [(lit "long_name", lit "temp"); (lit "units", lit "deg C")]; named_b (lit "rh") [(lit "units", lit "%")]]) =
  Ok [(lit "temp", Some (gstr (lit "temp")), Some (gstr (lit "deg C"))); (lit "rh", Some (gstr (lit "rh")), Some (gstr (lit "%")))].
Proof. vm_compute. reflexivity. Qed.
Example C93_conditions : let i := v_info (named_b (lit "T") [(lit "long_name", lit "temp"); (lit "units", lit "deg C")]) in
  called i (lit "temp") /\ measured_in i (lit "deg C") /\ identifier (lit "temp") /\ no_parentheses (lit "temp") /\ no_parentheses (lit "deg C") /\ strip (lit "deg C") = lit "deg C".
Proof.
  cbv zeta. split; [left; reflexivity|]. split; [split; [discriminate|left; reflexivity]|]. split.
  - split; [discriminate|]. split; [cbn; lia|]. split; [reflexivity|]. intros c I Q. apply unsafe_iff in Q. vm_compute in I.
    repeat (destruct I as [<- | I]; [discriminate Q|]). destruct I.
  - repeat split; intros Q; vm_compute in Q; repeat (destruct Q as [Q|Q]; [discriminate Q|]); exact Q.
Qed.
(** A name with a capital and a blank, and units with parentheses. *)
Theorem C93_refuted : exists (vars : list (xvar b64)),
  vars = [named_b (lit "T") [(lit "long_name", lit "Air temp"); (lit "units", lit "K")]; named_b (lit "n") [(lit "units", lit "(m s)-1")]] /\
  exists n3 u3, texts (there_and_back env_b opts_b64 plain_settings (gl (lit "Test")) vars) =
  Ok [(lit "air_temp", Some (gstr (lit "air_temp")), Some (gstr (lit "K"))); (n3, Some (gstr n3), u3)] /\ u3 <> Some (gstr (lit "(m s)-1")).
Proof. eexists. split; [reflexivity|]. eexists _, _. split; [vm_compute; reflexivity|]. vm_compute. discriminate. Qed.
Print Assumptions C92_partial.
Print Assumptions C92_refuted.
Print Assumptions C93_name_of_file.
Print Assumptions C93_partial.
Print Assumptions C93_refuted.
