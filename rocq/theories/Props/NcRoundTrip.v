(** C78 and C79: variables that are converted, written to a file and read. *)
From Coq Require Import List NArith ZArith Bool Lia.
From Verif Require Import Py.Str Py.Res Py.Num Py.Arith Model.Dict Model.CommonUtils Model.NAWrite Model.NARead Spec.TextSpec Spec.Records
  Spec.RoundTripSpec Model.Xarray Model.Collector Spec.ValuesSpec Spec.CollectorSpec Spec.NcRoundTripSpec
  Spec.WholeNum Spec.Binary64 Proofs.StrLemmas Proofs.ReadFrame Proofs.ReadData Proofs.SampleOk Proofs.NumLemmas Proofs.CollectorLemmas Proofs.CollectorFrame Props.CollectorProps Props.CommentProps Props.RoundTrip Props.AxisProps
  Props.ValuesProps.
Import ListNotations.

Section Back.
Context {num : Type} {Num : NumOps num} {Ar : ArithOps num}.
Variable E : env num.
Local Notation xvar := (xvar num).
Local Notation pyv := (pyv num).
Local Notation na := (na num).
Local Notation number := (number num).

Lemma attr_some (d : na) k v : attr d k = v -> v <> PNone -> k <> kIGN -> d k = Some v.
Proof. unfold attr. destruct (d k); [congruence |]. destruct k; cbn; congruence. Qed.
Lemma Forall_forall2 {A B} (P : A -> B -> Prop) (l : list (A * B)) : Forall (fun p => P (fst p) (snd p)) l -> forall a b, In (a, b) l -> P a b.
Proof. rewrite Forall_forall. intros F a b J. exact (F _ J). Qed.
Lemma niv_of req globals (vars : list xvar) cs c d v : convert E req globals vars = Ok (Some cs) -> In c cs -> c_na c = Some d -> In v (c_main c) ->
  attr d kNIV = PInt (Z.of_nat (length (v_axes v))) /\ attr d kIVOL = PInt 1 /\ attr d kNVOL = PInt 1 /\ (~ In (lit "no_of_nasa_ames_header_lines") (map fst globals) -> attr d kNLHEAD = PInt (-999)).
Proof.
  intros R I Nd Iv. destruct (convert_each E _ _ _ _ _ R I) as (vs & C & _ & _).
  destruct (collect_steps E _ _ _ _ _ C Nd) as (a & d1 & d2 & g & d3 & v0 & ax0 & Ha & H1 & H2 & Hg & H3 & _ & _ & Ed & Em & _).
  split; [| split; [rewrite Ed; reflexivity | split; [rewrite Ed; reflexivity |]]].
  - unfold attr. rewrite Ed, (same_header E ax0 d3 kNIV) by (cbn; intuition discriminate). rewrite (comments_frame _ _ _ _ H3 kNIV) by (cbn; intuition discriminate).
    rewrite (same_globals E _ _ _ Hg kNIV) by (cbn; intuition discriminate). rewrite (same_aux E _ _ _ H2 kNIV) by (cbn; intuition discriminate).
    rewrite (same_vars E _ _ _ _ _ H1 kNIV) by (cbn; intuition discriminate).
    assert (Lv : length (v_axes v) = a_niv a).
    { destruct (analyse_merged E _ _ _ Ha) as (best' & _ & _ & Hn' & M & _). rewrite Hn'. rewrite <- Em in M.
      destruct (M v Iv) as [-> | F]; [reflexivity |]. symmetry. clear - F. unfold rank. induction F; cbn; congruence. }
    rewrite Lv. destruct (a_nvpm a); reflexivity.
  - intros Ng. unfold attr. rewrite Ed, (same_header E ax0 d3 kNLHEAD) by (cbn; intuition discriminate).
    rewrite (comments_frame _ _ _ _ H3 kNLHEAD) by (cbn; intuition discriminate).
    assert (Gf : gs_na g kNLHEAD = d2 kNLHEAD).
    { unfold defineNAGlobals in Hg. refine (forR_inv (fun g => gs_na g kNLHEAD = d2 kNLHEAD) _ _ _ _ _ Hg eq_refl).
      intros x s s' Ix Q P. rewrite <- P. clear P. assert (Nx : fst x <> lit "no_of_nasa_ames_header_lines") by (intros Q'; apply Ng; rewrite <- Q'; apply in_map, Ix).
      unfold global_item in Q. destruct x as [k gv]. cbn [fst] in Nx. cbv zeta in Q.
      destruct (str_eqb k (lit "first_valid_date_of_data")). { destruct (numpy_scalar gv); [discriminate Q |]. injection Q as <-. reflexivity. }
      destruct (negb (negb (g_np gv) && match g_val gv with PStr _ | PInt _ | PNum _ => true | _ => false end)). { injection Q as <-. reflexivity. }
      destruct (str_eqb k (lit "history")). { bindE Q t Ht. injection Q as <-. reflexivity. }
      destruct (str_eqb k (lit "institution")).
      { destruct (g_val gv) as [| | | s0 |]; try discriminate Q. destruct (match institution_match s0 with Some p => p | None => (s0, s0) end). injection Q as <-. reflexivity. }
      destruct (str_eqb k (lit "comment")).
      { destruct (g_val gv) as [| | | s0 |]; try discriminate Q. destruct (sort_comments (split_chr c_nl s0) false false). injection Q as <-. reflexivity. }
      destruct (lookup k plain_map) as [key |] eqn:L.
      - injection Q as <-. cbn [gs_na]. unfold plain_map in L. cbn [lookup] in L.
        destruct (str_eqb k (lit "source")); [injection L as <-; reflexivity |].
        destruct (str_eqb k (lit "title")); [injection L as <-; reflexivity |].
        destruct (str_eqb k (lit "file_format_index")); [injection L as <-; reflexivity |].
        destruct (str_eqb k (lit "no_of_nasa_ames_header_lines")) eqn:F; [apply str_eqb_eq in F; contradiction |].
        repeat (match type of L with (if ?b then _ else _) = _ => destruct b end; [injection L as <-; reflexivity |]). discriminate L.
      - bindE Q t Ht. injection Q as <-. reflexivity. }
    rewrite Gf, (same_aux E _ _ _ H2 kNLHEAD) by (cbn; intuition discriminate). rewrite (same_vars E _ _ _ _ _ H1 kNLHEAD) by (cbn; intuition discriminate).
    reflexivity.
Qed.

(** a variable as it is in the record *)
Definition rec_miss (v : xvar) : number :=
  match Xarray.v_miss v with Some (PNum x) => NF x | Some (PInt z) => NI z | _ => NF (e_fill E) end.
Definition rec_vals (v : xvar) : list number :=
  match v_data v with PList l => map (fun c => match c with PNum x => if num_isnan x then rec_miss v else NF x | _ => NI 0 end) l | _ => [] end.
Lemma rec_entry n v e : column (e_fill E) n v -> entry_for (e_fill E) v e ->
  exists s, getBestName (v_info v) = Ok s /\ e = (PStr s, pv (rec_miss v), PInt 1, nums_pv (rec_vals v)) /\ length (rec_vals v) = n.
Proof.
  intros (Tv & Mv & l & Dv & Lv) He. destruct e as [[[nm m] sc] w]. destruct He as ((s & Hs & ->) & Hm & -> & Hw). rewrite Tv in Hw.
  exists s. split; [exact Hs |].
  assert (Em : m = pv (rec_miss v)).
  { unfold missing_of in Hm. unfold miss_num in Mv. unfold rec_miss. destruct (Xarray.v_miss v) as [[| z | x | t | t] |]; try (now destruct Mv); exact Hm. }
  split.
  - rewrite Em. f_equal. rewrite Dv in Hw. inversion Hw as [| | l0 l' F | v' B]; [| destruct B]. subst. unfold rec_vals. rewrite Dv. unfold nums_pv. rewrite map_map, map_map.
    f_equal. clear - F. remember (map PNum l) as L eqn:EL. revert l EL. induction F as [| a b la lb M F IH]; intros [| x l] EL; try discriminate EL; [reflexivity |].
    cbn [map] in EL |- *. injection EL as Ea EL. rewrite <- (IH l EL). f_equal. subst a. inversion M as [y N | y N | | v' B]; subst; try rewrite N; try reflexivity. destruct B.
  - unfold rec_vals. rewrite Dv, !map_length. exact Lv.
Qed.
Definition rec_var (v : xvar) : Records.var num :=
  Records.mkVar (NI 1) (rec_miss v) (match getBestName (v_info v) with Ok s => s | Err _ => [] end).
Lemma rec_entries n vs es : Forall (column (e_fill E) n) vs -> Forall2 (entry_for (e_fill E)) vs es ->
  names es = map PStr (map Records.v_name (map rec_var vs)) /\ misses es = map pv (map Records.v_miss (map rec_var vs)) /\
  scales es = map pv (map v_scal (map rec_var vs)) /\ arrays es = map nums_pv (map rec_vals vs) /\
  Forall (fun l => length l = n) (map rec_vals vs) /\ Forall (fun v => exists s, getBestName (v_info v) = Ok s) vs.
Proof.
  intros Fc F. induction F as [| v e vs es He F IH]; [repeat split; constructor |]. inversion Fc as [| ? ? Cv Fc']; subst.
  destruct (IH Fc') as (A & B & C & D & L & G). destruct (rec_entry _ _ _ Cv He) as (s & Hs & -> & Ls).
  cbn [names misses scales arrays map fst snd rec_var Records.v_name Records.v_miss v_scal]. rewrite Hs.
  unfold names, misses, scales, arrays in A, B, C, D. rewrite A, B, C, D. repeat split; try reflexivity; constructor; eauto.
Qed.
Lemma rec_returned g n v : column (e_fill E) n v -> PList (map pv (map (data_num g) (rec_vals v))) = returned g (e_fill E) v.
Proof.
  intros (Tv & Mv & l & Dv & Lv). unfold returned, rec_vals. rewrite Dv. destruct (miss_num (e_fill E) v) as [m |] eqn:Em; [| congruence].
  rewrite !map_map. f_equal. apply map_ext. intros x. destruct (num_isnan x); [| reflexivity]. cbn [data_num pv].
  unfold miss_num in Em. unfold rec_miss. destruct (Xarray.v_miss v) as [[| z | y | t | t] |]; try discriminate Em; injection Em as <-; reflexivity.
Qed.
End Back.

(** ** C78 *)
(** Where every variable of a dictionary of format 1001 is a column of numbers and
    the header can be written, the file can be written and read; axis, names and
    all values come back, numbers as they are printed.

    Missing for the whole claim: titles with more than one line, see below;
    headers without title, source or institution; other formats. *)
Theorem C78_partial : forall num (Num : NumOps num) (Ar : ArithOps num) (E : env num) req globals (vars : list (xvar num)) cs c d a (o : opts num) g,
  plain_opts o g -> ~ In (lit "file_format_index") (map fst globals) -> ~ In (lit "no_of_nasa_ames_header_lines") (map fst globals) ->
  convert E req globals vars = Ok (Some cs) -> In c cs -> table (e_fill E) c d a ->
  forall h, exists file hdr d2 d', write_body o C1001 false (mkW [] h d) = (Ok tt, mkW file hdr d2) /\ read_file file 0 = Ok (C1001, d') /\
    attr d' kX = PList (map (fun x => PNum (g x)) (ax_nums a)) /\ attr d' kXNAME = attr d kXNAME /\ attr d' kVNAME = attr d kVNAME /\
    attr d' kVSCAL = PList (map (fun _ => PNum (num_of_Z 1)) (c_main c)) /\
    attr d' kVMISS = PList (map (fun w => match miss_num (e_fill E) w with Some m => PNum m | None => PNone end) (c_main c)) /\
    attr d' kV = PList (map (returned g (e_fill E)) (c_main c)).
Proof.
  intros num Num Ar E req globals vars cs c d a o g Po Nf Nl R I (Nd & Hf & (v & rest & Ev & Va) & La & Wh & Fc & Na & Nv) h.
  destruct (C75_values _ _ _ E _ _ _ _ _ R I) as (dd & es & Nd' & F & Anv & An & Am & As & Av). rewrite Nd in Nd'. injection Nd' as <-.
  destruct (C77_axes _ _ _ E _ _ _ _ _ _ _ _ _ Nf R I Ev Nd Hf) as (a' & more & xn & Va' & Xn & Fx & X1 & _ & _ & Xd). rewrite Va in Va'. injection Va' as <- <-.
  destruct (X1 eq_refl) as (_ & X). destruct (Xd ltac:(discriminate) La) as (dx & dr & Dx & Ld & St). clear X1 Xd.
  destruct dr; [| discriminate Ld].
  assert (Pd : exists r, dx = pv r). { destruct St as [(-> & _) | (p & q & _ & _ & -> & _)]; [exists (NI 0) | exists (NF (num_minus q p))]; reflexivity. }
  destruct Pd as (rdx & ->).
  assert (Iv : In v (c_main c)) by (rewrite Ev; left; reflexivity).
  destruct (niv_of E _ _ _ _ _ _ _ R I Nd Iv) as (Ni & Iv1 & Nv1 & Nh). specialize (Nh Nl). rewrite Va in Ni. cbn [length Z.of_nat] in Ni.
  destruct (C52_counts _ _ _ E _ _ _ _ _ R I) as (dd & scom & ncom & Nd' & S1 & S2 & S3 & C1 & C2 & C3). rewrite Nd in Nd'. injection Nd' as <-.
  destruct Wh as ((on & og & sn & mn & O1 & O2 & O3 & O4 & T1 & T2 & T3 & T4) & (dt & Dt) & (rd & Rd) & Cr).
  destruct (rec_entries E _ _ _ Fc F) as (En & Em & Es & Ea & Ll & Lb).
  rewrite Va in Fx. inversion Fx as [| ? ? ? ? (xs & Hx & ->) Fx']; subst. inversion Fx'; subst. clear Fx Fx'.
  set (r := mk1001 (mkCommon on og sn mn 1 1 dt rd scom ncom) (map (rec_var E) (c_main c)) rdx xs (map NF (ax_nums a)) (map (rec_vals E) (c_main c))).
  assert (Le : length (c_main c) = length es) by (clear - F; induction F; cbn; congruence).
  assert (Hr : has d (items1001 r)).
  { unfold has. apply Forall_forall2. unfold items1001, common_items, var_items, r.
    cbn [app r1_common r1_vars r1_dx r1_xname r1_x r1_v c_oname c_org c_sname c_mname c_ivol c_nvol c_date c_rdate c_scom c_ncom].
    unfold len_pv. rewrite map_length. unfold strs_pv.
    repeat constructor; cbn [fst snd]; try assumption; apply attr_some; try discriminate; try assumption.
    - rewrite As, Es. unfold nums_pv. reflexivity.
    - rewrite Am, Em. reflexivity.
    - rewrite An, En. reflexivity.
    - rewrite X. unfold nums_pv. rewrite map_map. reflexivity.
    - rewrite Av, Ea. reflexivity. }
  assert (Or : ok1001 r).
  { unfold ok1001, r. cbn [r1_common r1_vars r1_dx r1_xname r1_x r1_v]. split; [| split; [| split; [| split]]].
    - unfold common_ok. cbn [c_oname c_org c_sname c_mname c_scom c_ncom]. do 4 (split; [assumption |]).
      split; apply Forall_forall; intros t J; rewrite Forall_forall in S3, C3;
        (split; [first [exact (S3 t J) | exact (C3 t J)] | first [exact (Cr kSCOM scom t (or_introl eq_refl) S1 J) | exact (Cr kNCOM ncom t (or_intror eq_refl) C1 J)]]).
    - unfold vars_ok. rewrite Ev at 1. split; [discriminate |]. apply Forall_forall. intros q J. apply in_map_iff in J. destruct J as (w & <- & J).
      rewrite Forall_forall in Lb. destruct (Lb w J) as (t & Ht). unfold rec_var. cbn [Records.v_name]. rewrite Ht. exact (Nv w t J Ht).
    - exact (Na xs Hx).
    - rewrite !map_length. reflexivity.
    - rewrite map_length. exact Ll. }
  destruct (C09_roundtrip_1001 _ _ o g r d _ Po Or Hr Nh h) as (file & hdr & d2 & Wf & data & d' & _ & Rf & Dd).
  exists file, hdr, d2, d'. split; [exact Wf |]. split; [exact Rf |].
  assert (Ad : forall k w, d' k = Some w -> attr d' k = w) by (intros k w Q; unfold attr; rewrite Q; reflexivity).
  split; [| split; [| split; [| split; [| split]]]]; (apply Ad || (rewrite ?Xn, ?An; apply Ad)); rewrite Dd; cbn [find app key_beq fst snd items1001 common_items var_items read_items norm1001 r1_common r1_vars r1_dx r1_xname r1_x r1_v].
  - unfold nums_pv, r. cbn [r1_x]. rewrite !map_map. reflexivity.
  - rewrite Xn. reflexivity.
  - rewrite An, En. unfold strs_pv, r. cbn [r1_vars]. rewrite (map_map norm_var). reflexivity.
  - unfold nums_pv, r. cbn [r1_vars]. rewrite !map_map. reflexivity.
  - unfold nums_pv, r. cbn [r1_vars]. rewrite !map_map. do 2 f_equal. apply map_ext_in. intros w J. rewrite Forall_forall in Fc.
    destruct (Fc w J) as (_ & Mw & _). unfold miss_num in *. unfold rec_var, rec_miss. cbn [norm_var Records.v_miss head_num pv val].
    destruct (Xarray.v_miss w) as [[| z | x | t | t] |]; try (now destruct Mw); reflexivity.
  - unfold r. cbn [r1_v]. rewrite !map_map. do 2 f_equal. apply map_ext_in. intros w J. rewrite Forall_forall in Fc.
    exact (rec_returned E g _ w (Fc w J)).
Qed.
Print Assumptions C78_partial.

(** Whole numbers and one value that is not a number. *)
Inductive wnan := Num (w : whole) | Nan.
Global Instance WnanOps : NumOps wnan := {|
  num_str := fun x => match x with Num w => num_str w | Nan => lit "nan" end;
  num_parse := fun s => if str_eqb s (lit "nan") then Some Nan else option_map Num (num_parse s);
  num_trunc := fun x => match x with Num w => num_trunc w | Nan => None end;
  num_of_Z := fun z => Num (Whole z)
|}.
Definition wz (x : wnan) : option Z := match x with Num (Whole z) => Some z | Nan => None end.
Definition wop (f : Z -> Z -> Z) (x y : wnan) : wnan := match wz x, wz y with Some a, Some b => Num (Whole (f a b)) | _, _ => Nan end.
Global Instance WnanArith : ArithOps wnan := {|
  num_plus := wop Z.add; num_minus := wop Z.sub; num_times := wop Z.mul;
  num_same := fun x y => match wz x, wz y with Some a, Some b => Z.eqb a b | _, _ => false end;
  num_isnan := fun x => match x with Nan => true | _ => false end
|}.
Definition wnan_g (x : wnan) : str := match x with Num w => whole_g w | Nan => lit "nan" end.
Definition opts_wnan : opts wnan := mkOpts (lit "    ") wnan_g false (fun _ => None).
Lemma dec_not_nan z : str_eqb (dec_of_Z z) (lit "nan") = false.
Proof.
  apply not_true_is_false. intros K. apply str_eqb_eq in K. pose proof (dec_of_Z_chars z) as Kc. rewrite K in Kc. discriminate Kc.
Qed.
Lemma plain_wnan : plain_opts opts_wnan (fun x => x).
Proof.
  destruct whole_str_law as (H1 & H2). assert (H3 := whole_fmt_law).
  split; [reflexivity |]. split; [apply delim4 |]. split; [split |].
  - intros [w |]; [| split; [apply token_ok_of; reflexivity | reflexivity]]. destruct (H1 w) as (A & B). split; [exact A |].
    cbn [num_parse num_str WnanOps]. rewrite B. destruct w as [z].
    replace (str_eqb (num_str (Whole z)) (lit "nan")) with false; [reflexivity |]. symmetry. apply not_true_is_false. intros K. apply str_eqb_eq in K.
    cbn [num_str WholeOps] in K. apply (f_equal (fun s => @rev chr s)) in K. rewrite rev_app_distr in K. discriminate K.
  - intros z. cbn [num_parse WnanOps]. rewrite dec_not_nan, H2. reflexivity.
  - intros [w |]; [| split; [apply token_ok_of; reflexivity | reflexivity]]. destruct (H3 w) as (A & B). split; [exact A |].
    cbn [num_parse WnanOps o_fmt opts_wnan wnan_g]. rewrite B. destruct w as [z]. cbn [whole_g]. rewrite dec_not_nan. reflexivity.
Qed.

Definition through {num} `{NumOps num} `{ArithOps num} (E : env num) (o : opts num) (globals : list (str * gval num)) (vars : list (xvar num)) (ks : list key) :
    Res (list (pyv num)) :=
  match convert E None globals vars with
  | Ok (Some [c]) => match c_na c with
     | Some d => match write_body o C1001 false (mkW [] [] d) with
         | (Ok tt, w) => (do p <- read_file (w_file w) 0; Ok (map (attr (snd p)) ks))%res
         | (Err e, _) => Err e end
     | None => Err EUnmodelled end
  | Ok _ => Err EUnmodelled
  | Err e => Err e
  end.
Definition gl {num} (t : str) : list (str * gval num) :=
  [(lit "title", gstr t); (lit "source", gstr (lit "Sonde")); (lit "institution", gstr (lit "BADC"))].
Definition tb : axis b64 := axb (lit "t") [bf "10"; bf "20"; bf "40"].
Definition qb (miss : option (pyv b64)) : xvar b64 := bvar (lit "q") [tb] (bdata [bf "1.5"; nan; bf "0.3333333333333333"]) miss.
(** The conversion, the file and reading it, in floating point numbers. *)
Example C78_example : through env_b opts_b64 (gl (lit "Test")) [qb None] [kMNAME; kXNAME; kX; kVNAME; kVMISS; kV] =
  Ok [PStr (lit "Test"); PList [PStr (lit "t")]; bdata [bf "10"; bf "20"; bf "40"]; PList [PStr (lit "q")]; bdata [bf "-9999999999"];
      PList [bdata [bf "1.5"; bf "-9999999999"; bf "0.3333333333"]]].
Proof. vm_compute. reflexivity. Qed.
(** The conditions of the theorem hold of this variable, in whole numbers with a
    value for not a number. *)
Definition env_w : env wnan :=
  mkEnv (fun _ => false) (lit "2024-01-01 00:00:00") [2024; 1; 1]%Z (lit "0.3") (Num (Whole (-99))) (Num (Whole (-9))) (Num (Whole 1)) (fun _ _ => None).
Definition ws (l : list Z) : list wnan := map (fun z => Num (Whole z)) l.
Definition tw : axis wnan := mkAx (mkNamed (lit "t") [] []) [None; None; None; None] (ws [10; 20; 40]%Z) None.
Definition qw : xvar wnan := mkVar (mkNamed (lit "q") [] []) [tw] (PList (map PNum [Num (Whole 5); Nan; Num (Whole 7)])) None None.
Example C78_conditions : exists cs c d, convert env_w None (gl (lit "Test")) [qw] = Ok (Some cs) /\ In c cs /\ table (e_fill env_w) c d tw.
Proof.
  assert (T : match convert env_w None (gl (lit "Test")) [qw] with
    | Ok (Some [c]) => match c_na c with Some d =>
        c_main c = [qw] /\ map d [kFFI; kONAME; kORG; kSNAME; kMNAME; kDATE; kRDATE; kSCOM] =
          [Some (PInt 1001); Some (PStr (lit "BADC")); Some (PStr (lit "BADC")); Some (PStr (lit "Sonde")); Some (PStr (lit "Test"));
           Some (PList [PInt 999; PInt 999; PInt 999]); Some (PList [PInt 2024; PInt 1; PInt 1]); Some (PList [])] /\
        match d kNCOM with Some (PList l) => forallb (fun s => match s with PStr s => negb (mem_chr c_cr s) | _ => false end) l = true | _ => False end
      | None => False end
    | _ => False end) by (vm_compute; repeat split).
  destruct (convert env_w None (gl (lit "Test")) [qw]) as [[[| c [|]] |] |]; try contradiction.
  destruct (c_na c) as [d |] eqn:Nd; [| contradiction].
  destruct T as (Em & Ed & En). cbn [map] in Ed. injection Ed as D1 D2 D3 D4 D5 D6 D7 D8.
  eexists _, c, d. split; [reflexivity |]. split; [left; reflexivity |].
  split; [exact Nd |]. split; [exact D1 |]. split; [exists qw, []; split; [exact Em | reflexivity] |]. split; [reflexivity |]. split; [split; [| split; [| split]] |].
  - exists (lit "BADC"), (lit "BADC"), (lit "Sonde"), (lit "Test"). repeat (split; [assumption |]). repeat split; apply title_ok_of; reflexivity.
  - exists (999, 999, 999)%Z. exact D6.
  - exists (2024, 1, 1)%Z. exact D7.
  - intros k l s [-> | ->] Q J.
    + rewrite D8 in Q. injection Q as Q. destruct l; [destruct J | discriminate Q].
    + rewrite Q in En. rewrite forallb_forall in En. specialize (En (PStr s) (in_map PStr _ _ J)). apply negb_true_iff in En. now apply mem_chr_false in En.
  - rewrite Em. split; [| split].
    + constructor; [| constructor]. split; [reflexivity |]. split; [discriminate |]. eexists. split; reflexivity.
    + intros s Hs. apply name_ok_of. vm_compute in Hs. injection Hs as <-. reflexivity.
    + intros w s [<- | []] Hs. apply name_ok_of. vm_compute in Hs. injection Hs as <-. reflexivity.
Qed.
(** A title with two lines: the file cannot be read. *)
Theorem C78_refuted : exists globals (vars : list (xvar b64)) cs c d w,
  convert env_b None globals vars = Ok (Some cs) /\ In c cs /\ c_na c = Some d /\ d kFFI = Some (PInt 1001) /\
  write_body opts_b64 C1001 false (mkW [] [] d) = (Ok tt, w) /\ read_file (num:=b64) (w_file w) 0 = Err (ENappy E_IncorrectItems).
Proof.
  assert (T : match convert env_b None (gl (lit "T" ++ nl ++ lit "U")) [qb None] with
    | Ok (Some [c]) => match c_na c with Some d => d kFFI = Some (PInt 1001) /\
        let r := write_body opts_b64 C1001 false (mkW [] [] d) in fst r = Ok tt /\ read_file (num:=b64) (w_file (snd r)) 0 = Err (ENappy E_IncorrectItems)
      | None => False end
    | _ => False end) by (vm_compute; repeat split).
  exists (gl (lit "T" ++ nl ++ lit "U")), [qb None].
  destruct (convert env_b None (gl (lit "T" ++ nl ++ lit "U")) [qb None]) as [[[| c [|]] |] |]; try contradiction.
  destruct (c_na c) as [d |] eqn:Nd; [| contradiction]. destruct T as (Hf & T). cbv zeta in T. destruct T as (Q1 & Q2).
  exists [c], c, d, (snd (write_body opts_b64 C1001 false (mkW [] [] d))).
  split; [reflexivity |]. split; [left; reflexivity |]. split; [exact Nd |]. split; [exact Hf |]. split; [apply run_pair, Q1 | exact Q2].
Qed.

(** ** C79 *)
(** Where the missing values survive printing, a cell without a value has the
    missing value of its variable when the file is read, and a cell with a value
    has it as printed.

    Missing for the whole claim: missing values with more digits than are
    printed, see below. *)
Theorem C79_partial : forall num (Num : NumOps num) (Ar : ArithOps num) (E : env num) req globals (vars : list (xvar num)) cs c d a (o : opts num) g,
  plain_opts o g -> ~ In (lit "file_format_index") (map fst globals) -> ~ In (lit "no_of_nasa_ames_header_lines") (map fst globals) ->
  convert E req globals vars = Ok (Some cs) -> In c cs -> table (e_fill E) c d a ->
  (forall w m, In w (c_main c) -> miss_num (e_fill E) w = Some m -> g m = m) ->
  forall h, exists file hdr d2 d', write_body o C1001 false (mkW [] h d) = (Ok tt, mkW file hdr d2) /\ read_file file 0 = Ok (C1001, d') /\
    forall i w l j x, nth_error (c_main c) i = Some w -> v_data w = PList (map PNum l) -> nth_error l j = Some x ->
      (num_isnan x = true -> exists m, cell (attr d' kVMISS) [i] = Some (PNum m) /\ cell (attr d' kV) [i; j] = Some (PNum m)) /\
      (num_isnan x = false -> cell (attr d' kV) [i; j] = Some (PNum (g x))).
Proof.
  intros num Num Ar E req globals vars cs c d a o g Po Nf Nl R I T Gm h.
  destruct (C78_partial _ _ _ E _ _ _ _ _ _ _ _ _ Po Nf Nl R I T h) as (file & hdr & d2 & d' & Wf & Rf & _ & _ & _ & _ & Vm & V).
  exists file, hdr, d2, d'. split; [exact Wf |]. split; [exact Rf |]. intros i w l j x Hi Dw Hj. rewrite Vm, V. cbn [cell]. rewrite !nth_error_map, Hi. cbn [option_map].
  destruct T as (_ & _ & _ & _ & _ & Fc & _). rewrite Forall_forall in Fc. assert (J := nth_error_In _ _ Hi). destruct (Fc w J) as (_ & Mw & _).
  unfold returned. rewrite Dw. destruct (miss_num (e_fill E) w) as [m |] eqn:Em; [| congruence].
  cbn [cell]. rewrite !nth_error_map, Hj. cbn [option_map]. split; intros Q; rewrite Q; [| reflexivity].
  exists m. rewrite (Gm w m J Em). split; reflexivity.
Qed.
Print Assumptions C79_partial.
Example C79_example : through env_b opts_b64 (gl (lit "Test")) [qb (Some (PNum (bf "-99.9")))] [kVMISS; kV] =
  Ok [bdata [bf "-99.9"]; PList [bdata [bf "1.5"; bf "-99.9"; bf "0.3333333333"]]].
Proof. vm_compute. reflexivity. Qed.
(** The default fill value of NetCDF: missing cells do not come back as missing. *)
Theorem C79_refuted : exists m (vars : list (xvar b64)) v1 m' v3,
  vars = [bvar (lit "q") [tb] (bdata [bf "1.5"; nan; bf "0.25"]) (Some (PNum m))] /\ m = bf "9.969209968386869e+36" /\
  through env_b opts_b64 (gl (lit "Test")) vars [kVMISS; kV] = Ok [bdata [m]; PList [bdata [v1; m'; v3]]] /\ m' <> m.
Proof.
  eexists _, _, _, (bf "9.969209968e+36"), _. split; [reflexivity |]. split; [reflexivity |]. split; [vm_compute; reflexivity |]. vm_compute. discriminate.
Qed.
Print Assumptions C78_refuted.
Print Assumptions C79_refuted.
