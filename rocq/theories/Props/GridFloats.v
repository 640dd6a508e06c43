(** C121: variables of doubles from NetCDF to a NASA Ames file and back. *)
From Coq Require Import List NArith ZArith QArith Bool Lia Floats.SpecFloat.
From Verif Require Import Py.Str Py.Res Py.Num Py.Arith Model.Dict Model.CommonUtils Model.Utils Model.NAWrite Model.NARead Model.NACore Model.Normalize Spec.TextSpec Spec.Records
  Spec.RoundTripSpec Spec.RewriteSpec Model.Xarray Model.Collector Model.ToXarray Spec.ValuesSpec Spec.CollectorSpec Spec.NcRoundTripSpec Spec.ToXarraySpec Spec.BackSpec Spec.GridSpec
  Spec.WholeNum Spec.Binary64 Spec.Float64 Spec.LinspaceSpec Spec.DecimalSpec Spec.GridFloatSpec Proofs.FloatGrid Props.FloatProps Props.NumeralProps
  Proofs.StrLemmas Proofs.NumLemmas Proofs.FloatValid Proofs.SampleOk Proofs.Convertible Props.CoreProps Props.RoundTrip Props.ConvertibleProps Props.NcRoundTrip Props.ThereAndBack Props.GridRoundTrip Props.GridThereAndBack.
Import ListNotations.

Lemma short_reread x : short (NF x) -> f_reread x = x.
Proof. intros H. pose proof (short_same (NF x) H) as Q. unfold data_num in Q. cbn [val] in Q. congruence. Qed.
Lemma cells_same m p : short (NF m) -> cells (fun x => short (NF x)) p -> returned_cells f_reread m p = returned_cells (fun x => x) m p.
Proof.
  intros Hm. revert p. fix IH 1. intros p H. destruct p as [| z | n | t | l]; try reflexivity; cbn [returned_cells].
  - f_equal. cbn [cells] in H. destruct (num_isnan n) eqn:E; [now apply short_reread |]. destruct H as [H | H]; [discriminate H | now apply short_reread].
  - f_equal. revert H. induction l as [| x l IL]; intros H; [reflexivity |]. cbn [map]. destruct H as (H1 & H2). f_equal; [apply IH; exact H1 | apply IL; exact H2].
Qed.

(** Variables of one dimension: all doubles.  The axis and the values come back
    as ten digits give them, the missing value in full; values of at most ten
    digits come back as they are. *)
Theorem C121_columns : forall (E : env f64) req globals (vars : list (xvar f64)) cs c d a (s : settings (num := f64)),
  ~ In (lit "file_format_index") (map fst globals) -> ~ In (lit "no_of_nasa_ames_header_lines") (map fst globals) ->
  convert E req globals vars = Ok (Some cs) -> In c cs -> table (e_fill E) c d a -> ax_nums a <> [] -> everything s ->
  forall h, exists file hdr d2 d' ob, write_body opts_f64 C1001 false (mkW [] h d) = (Ok tt, mkW file hdr d2) /\ read_file file 0 = Ok (C1001, d') /\
    toXarray s d' = Ok ob /\ o_aux ob = [] /\ length (o_vars ob) = length (c_main c) /\
    exists x, ax_vals x = map f_reread (ax_nums a) /\ (Forall (fun y => short (NF y)) (ax_nums a) -> ax_vals x = ax_nums a) /\
    forall i w, nth_error (c_main c) i = Some w -> exists v m, nth_error (o_vars ob) i = Some v /\ v_axes v = [x] /\
      miss_num (e_fill E) w = Some m /\ v_miss v = Some (PNum m) /\ v_data v = returned f_reread (e_fill E) w /\
      (short (NF m) -> cells (fun y => short (NF y)) (v_data w) -> v_data v = returned (fun y => y) (e_fill E) w).
Proof.
  intros E req globals vars cs c d a s H1 H2 H3 H4 H5 H6 H7 h.
  destruct (C92_partial f64 FOps FArith E req globals vars cs c d a opts_f64 f_reread s C111_floats_fulfil_the_laws H1 H2 H3 H4 H5 H6 H7
    (fun w l x _ _ _ => times_one x) h) as (file & hdr & d2 & d' & ob & K1 & K2 & K3 & K4 & K5 & x & K6 & K7).
  exists file, hdr, d2, d', ob. do 5 (split; [assumption |]). exists x. split; [exact K6 |]. split.
  { intros F. rewrite K6. rewrite <- (map_id (ax_nums a)) at 2. apply map_ext_in. intros y Hy. rewrite Forall_forall in F. apply short_reread. auto. }
  intros i w Hw. destruct (K7 i w Hw) as (v & m & L1 & L2 & L3 & L4 & L5). exists v, m. do 5 (split; [assumption |]).
  intros Hm Hc. rewrite L5. unfold returned. rewrite L3. destruct (v_data w) as [| | | | l] eqn:Ed; try reflexivity. f_equal.
  pose proof (cells_same m (PList l) Hm Hc) as Q. cbn [returned_cells] in Q. assert (Q' : map (returned_cells f_reread m) l = map (returned_cells (fun y => y) m) l) by congruence.
  clear - Q' Hm Hc. revert Hc. induction l as [| y l IL]; intros Hc; [reflexivity |]. cbn [map] in *. destruct Hc as (Hy & Hc).
  assert (T : map (returned_cells f_reread m) l = map (returned_cells (fun y => y) m) l) by congruence. f_equal; [| exact (IL T Hc)].
  destruct y as [| z | n | t | k]; try reflexivity. f_equal. cbn [cells] in Hy. destruct (num_isnan n) eqn:En; [now apply short_reread |].
  destruct Hy as [Hy | Hy]; [discriminate Hy | now apply short_reread].
Qed.

(** Grids: the values of the bounded axes are multiples of a power of two (whole
    numbers, halves, quarters ...) that can be written with ten digits. *)
Theorem C121_grids_partial : forall (E : env f64) req globals (vars : list (xvar f64)) cs c d a axes (s : settings (num := f64)),
  ~ In (lit "file_format_index") (map fst globals) -> ~ In (lit "no_of_nasa_ames_header_lines") (map fst globals) ->
  convert E req globals vars = Ok (Some cs) -> In c cs -> grid_table (e_fill E) c d a axes ->
  length axes = 1%nat \/ (exists l, attr d kNXDEF = PList l /\ rev l = l) ->
  ax_nums a <> [] -> everything s ->
  Forall (fun b => exists e, (-900 <= e <= 900)%Z /\ Forall (on_grid e) (ax_vals b)) axes ->
  forall h, exists file hdr d2 d' ob, write_body opts_f64 (grid_class axes) false (mkW [] h d) = (Ok tt, mkW file hdr d2) /\ read_file file 0 = Ok (grid_class axes, d') /\
    toXarray s d' = Ok ob /\ length (o_vars ob) = length (c_main c) /\ length (o_aux ob) = length (c_aux c) /\
    exists x xs, ax_vals x = map f_reread (ax_nums a) /\ map ax_vals xs = map ax_vals axes /\
    (forall i w, nth_error (c_main c) i = Some w -> exists v m, nth_error (o_vars ob) i = Some v /\ v_axes v = x :: xs /\
      miss_num (e_fill E) w = Some m /\ v_miss v = Some (PNum m) /\ v_data v = returned_array f_reread (e_fill E) w /\
      (short (NF m) -> cells (fun y => short (NF y)) (v_data w) -> v_data v = returned_array (fun y => y) (e_fill E) w)) /\
    (forall i w, nth_error (c_aux c) i = Some w -> exists v m, nth_error (o_aux ob) i = Some v /\ v_axes v = [x] /\
      miss_num (e_fill E) w = Some m /\ v_miss v = Some (PNum m) /\ v_data v = returned f_reread (e_fill E) w).
Proof.
  intros E req globals vars cs c d a axes s H1 H2 H3 H4 H5 H6 H7 H8 H9 h. rewrite Forall_forall in H9.
  assert (A1 : forall b x, In b axes -> In x (ax_vals b) -> f_reread x = x).
  { intros b x Hb Hx. destruct (H9 b Hb) as (e & He & F). rewrite Forall_forall in F. exact (grid_reread e x He (F x Hx)). }
  assert (A2 : Forall (fun b => adds_up (ax_vals b)) axes).
  { apply Forall_forall. intros b Hb. destruct (H9 b Hb) as (e & He & F). exact (grid_adds_up e _ He F). }
  destruct (C107_partial f64 FOps FArith E req globals vars cs c d a axes opts_f64 f_reread s C111_floats_fulfil_the_laws H1 H2 H3 H4 H5 H6 H7 H8 A1 A2
    (fun x => times_one _) h) as (file & hdr & d2 & d' & ob & K1 & K2 & K3 & K4 & K5 & x & xs & K6 & K7 & K8 & K9).
  exists file, hdr, d2, d', ob. do 5 (split; [assumption |]). exists x, xs. do 2 (split; [assumption |]). split; [| exact K9].
  intros i w Hw. destruct (K8 i w Hw) as (v & m & L1 & L2 & L3 & L4 & L5). exists v, m. do 5 (split; [assumption |]).
  intros Hm Hc. rewrite L5. unfold returned_array. rewrite L3. now apply cells_same.
Qed.

(** ** Examples *)
Definition env_f : env f64 :=
  mkEnv (fun l => uniform (num_minus (nth 1 l (ff "0")) (nth 0 l (ff "0"))) l) (lit "2024-01-01 00:00:00") [2024; 1; 1]%Z
    (lit "0.3") (ff "-9999999999") (ff "-9999.999") (ff "1") (fun _ _ => None).
Definition axf (n : str) (l : list f64) : axis f64 := mkAx (mkNamed n [] []) [None; None; None; None] l None.
Definition settings_f : settings (num := f64) := mkSet SAll SAll [] None false [] [] None (lit "2024-01-01 00:00:00") (lit "2.0").
(** Quarters of degrees, thirds as values, one of them missing. *)
Definition quarters : list f64 := map ff ["-0.5"; "-0.25"; "0"; "0.25"]%pylit.
Definition field_f (l : list f64) : xvar f64 := mkVar (mkNamed (lit "q") [] []) [axf (lit "t") (map ff ["0.1"; "0.2"]%pylit); axf (lit "y") l]
  (PList [PList (map PNum (map ff ["288.15"; "0.3333333333333333"; "nan"; "1"]%pylit)); PList (map PNum (map ff ["1"; "2"; "3"; "4"]%pylit))]) None None.
Definition written_f (v : xvar f64) : Res (na f64 * str) :=
  match convert env_f None (gl (lit "Test")) [v] with
  | Ok (Some [c]) => match c_na c with
     | Some d => match write_body opts_f64 C2010 false (mkW [] [] d) with (Ok tt, w) => Ok (d, w_file w) | (Err e, _) => Err e end
     | None => Err EUnmodelled end
  | Ok _ => Err EUnmodelled
  | Err e => Err e
  end.
Definition texts_f (p : pyv f64) : list str := (fix go (p : pyv f64) := match p with PNum x => [b_repr (f_val x)] | PList l => flat_map go l | _ => [] end) p.
Definition back_f (v : xvar f64) : Res (list (list (list str) * list str)) :=
  (do p <- written_f v; do r <- read_file (snd p) 0; do ob <- toXarray settings_f (snd r);
   Ok (map (fun v => (map (fun a => map (fun x => b_repr (f_val x)) (ax_vals a)) (v_axes v), texts_f (v_data v))) (o_vars ob)))%res.
Example C121_example : back_f (field_f quarters) =
  Ok [([map lit ["0.1"; "0.2"]%pylit; map lit ["-0.5"; "-0.25"; "0.0"; "0.25"]%pylit],
      map lit ["288.15"; "0.3333333333"; "-9999999999.0"; "1.0"; "1.0"; "2.0"; "3.0"; "4.0"]%pylit)].
Proof. vm_compute. reflexivity. Qed.
Definition only_f (v : xvar f64) : Res (option (list (collected f64))) := convert env_f None (gl (lit "Test")) [v].
Local Ltac names := intros; repeat match goal with J : In _ _ |- _ => cbn [In map app] in J | J : _ \/ _ |- _ => destruct J as [<- | J] | J : False |- _ => destruct J end;
  match goal with J : getBestName _ = Ok _ |- _ => vm_compute in J; injection J as <- end; apply name_ok_of; reflexivity.
Local Ltac arr := repeat first [split; [reflexivity |] | eexists | constructor]; try reflexivity.
Lemma one_grid_f (v : xvar f64) a b axes ffi : v_axes v = a :: b :: axes -> In (length axes) [0; 1; 2]%nat -> ffi = (Z.of_nat (2 + length axes) * 1000 + 10)%Z ->
  length (ax_nums a) = length (ax_vals a) -> Forall (fun b => ax_time b = None /\ ax_vals b <> []) (b :: axes) ->
  field (e_fill env_f) (length (ax_nums a) :: map ax_len (b :: axes)) v ->
  (forall x s, In x (a :: b :: axes) -> getBestName (ax_info x) = Ok s -> Records.name_ok s) -> (forall s, getBestName (v_info v) = Ok s -> Records.name_ok s) ->
  match only_f v with
    | Ok (Some [c]) => match c_na c with Some d =>
        c_main c = [v] /\ c_aux c = [] /\ map d [kFFI; kONAME; kORG; kSNAME; kMNAME; kDATE; kRDATE; kSCOM] =
          [Some (PInt ffi); Some (PStr (lit "BADC")); Some (PStr (lit "BADC")); Some (PStr (lit "Sonde")); Some (PStr (lit "Test"));
           Some (PList [PInt 999; PInt 999; PInt 999]); Some (PList [PInt 2024; PInt 1; PInt 1]); Some (PList [])] /\
        match d kNCOM with Some (PList l) => forallb (fun s => match s with PStr s => negb (mem_chr c_cr s) | _ => false end) l = true | _ => False end
      | None => False end
    | _ => False end ->
  exists c d, only_f v = Ok (Some [c]) /\ c_na c = Some d /\ grid_table (e_fill env_f) c d a (b :: axes).
Proof.
  intros Va Ln Ff La Pos Fi Na Nv T.
  destruct (only_f v) as [[[| c [|]] |] |]; try contradiction.
  destruct (c_na c) as [d |] eqn:Nd; [| contradiction].
  destruct T as (Em & Ex & Ed & En). cbn [map] in Ed. injection Ed as D1 D2 D3 D4 D5 D6 D7 D8.
  exists c, d. split; [reflexivity |]. split; [exact Nd |].
  split; [exact Nd |]. split; [cbn [In] in Ln; cbn [length]; lia |]. split; [rewrite D1, Ff; reflexivity |].
  split; [exists v, []; split; [exact Em | exact Va] |]. split; [exact La |]. split; [exact Pos |]. split; [split; [| split; [| split]] |].
  - exists (lit "BADC"), (lit "BADC"), (lit "Sonde"), (lit "Test"). repeat (split; [assumption |]). repeat split; apply title_ok_of; reflexivity.
  - exists (999, 999, 999)%Z. exact D6.
  - exists (2024, 1, 1)%Z. exact D7.
  - intros k l s [-> | ->] Q J.
    + rewrite D8 in Q. injection Q as Q. destruct l; [destruct J | discriminate Q].
    + rewrite Q in En. rewrite forallb_forall in En. specialize (En (PStr s) (in_map PStr _ _ J)). apply negb_true_iff in En. now apply mem_chr_false in En.
  - rewrite Em, Ex. split; [constructor; [exact Fi | constructor] |]. split; [constructor |]. split; [exact Na |].
    intros w s [<- | []] Hs. exact (Nv s Hs).
Qed.
Lemma quarter l z : ff l = f_of (fl z (-2)) -> (Z.abs z < 2 ^ 20)%Z -> on_grid (-2) (ff l).
Proof.
  intros E H. exists z. split; [lia |]. split.
  - exists (z * 25)%Z, (-2)%Z. split; [lia |]. rewrite inject_Z_mult. change (2 ^ (-2))%Q with (1 # 4)%Q. change (10 ^ (-2))%Q with (1 # 100)%Q.
    rewrite <- Qmult_assoc. apply Qmult_comp; [reflexivity | reflexivity].
  - rewrite E. apply f_val_of. apply FloatValid.normalize_valid.
Qed.
Example C121_conditions : (exists c d, only_f (field_f quarters) = Ok (Some [c]) /\ c_na c = Some d /\
    grid_table (e_fill env_f) c d (axf (lit "t") (map ff ["0.1"; "0.2"]%pylit)) [axf (lit "y") quarters]) /\
  everything settings_f /\ Forall (on_grid (-2)) quarters.
Proof.
  split; [| split].
  - apply (one_grid_f (field_f quarters) (axf (lit "t") (map ff ["0.1"; "0.2"]%pylit)) (axf (lit "y") quarters) [] 2010).
    + reflexivity.
    + cbn; auto.
    + reflexivity.
    + reflexivity.
    + repeat (constructor; [split; [reflexivity | discriminate] |]); constructor.
    + split; [reflexivity |]. split; [discriminate |]. arr.
    + names.
    + names.
    + vm_compute; repeat split.
  - repeat split; left; reflexivity.
  - repeat constructor; [apply (quarter _ (-2)) | apply (quarter _ (-1)) | apply (quarter _ 0) | apply (quarter _ 1)]; try reflexivity; apply f_inj; vm_compute; reflexivity.
Qed.
(** An axis of other values need not come back: 1e-20 becomes 0. *)
Theorem C121_refuted : exists l vs, map (fun x => b_repr (f_val x)) l = map lit ["1.0"; "1e-20"; "-1.0"; "-2.0"]%pylit /\
  back_f (field_f l) = Ok [([map lit ["0.1"; "0.2"]%pylit; map lit ["1.0"; "0.0"; "-1.0"; "-2.0"]%pylit], vs)].
Proof. exists (map ff ["1"; "1e-20"; "-1"; "-2"]%pylit). eexists. split; vm_compute; reflexivity. Qed.
Print Assumptions C121_columns.
Print Assumptions C121_grids_partial.
Print Assumptions C121_refuted.
