(** C108: variables of two dimensions that are converted on request to the
    formats 2110 and 2310, written to a file and read.
    C109: how the second axis is named in these formats. *)
From Coq Require Import List NArith ZArith Bool Lia.
From Verif Require Import Py.Str Py.Res Py.Num Py.Arith Model.Dict Model.CommonUtils Model.NAWrite Model.NARead Spec.TextSpec Spec.Records
  Spec.RoundTripSpec Spec.RewriteSpec Model.Xarray Model.Collector Spec.ValuesSpec Spec.CollectorSpec Spec.NcRoundTripSpec Spec.GridSpec Spec.ProfileSpec
  Spec.WholeNum Spec.Binary64 Proofs.StrLemmas Proofs.ReadFrame Proofs.ReadData Proofs.SampleOk Proofs.NumLemmas Proofs.CollectorLemmas Proofs.CollectorFrame
  Proofs.RT2 Proofs.RT3 Proofs.RT4 Proofs.RT6 Props.CollectorProps Props.CommentProps Props.RoundTrip Props.AxisProps Props.ValuesProps Props.NcRoundTrip Props.GridRoundTrip.
Import ListNotations.

Local Ltac nodup := repeat (constructor; [cbn; intuition discriminate|]); constructor.
(** ** What the conversion puts into the dictionary *)
Section Profile.
Context {num : Type} {Num : NumOps num} {Ar : ArithOps num}.
Variable E : env num.
Local Notation xvar := (xvar num).
Local Notation pyv := (pyv num).
Local Notation na := (na num).
Local Notation number := (number num).

Definition first_name (s : str) : str := lit "'" ++ s ++ lit "' value for first data point".
Definition step_name (s : str) : str := lit "'" ++ s ++ lit "' increment".
Local Ltac look := repeat first [rewrite attr_upd_same | rewrite attr_upd_other by discriminate]; reflexivity.

Lemma axes_2110 nvpm v a b (d d' : na) : v_axes v = [a; b] -> defineAxes E 2110 nvpm v d = Ok d' ->
  exists s t r0 r1, getBestName (ax_info a) = Ok s /\ getBestName (ax_info b) = Ok t /\
    attr d' kXNAME = strs_pv [s; t] /\ attr d' kDX = nums_pv [r0; r1] /\
    attr d' kX = PList (map (fun x => PList [x; PList (ax_items b)]) (ax_items a)) /\
    attr d' kNX = PList (map (fun _ => PInt (Z.of_nat (ax_len b))) (ax_vals a)) /\
    attr d' kA = PList [PList (map (fun _ => PInt (Z.of_nat (ax_len b))) (ax_vals a))] /\
    attr d' kANAME = PList [PStr (number_name s)] /\ attr d' kAMISS = PList [PNum (e_aux_miss E)] /\ attr d' kASCAL = PList [PNum (e_one E)].
Proof.
  unfold defineAxes. intros Ev R. cbv zeta in R. rewrite Ev in R. bindE R ax0 H0. bindE R name Hname. bindE R dz Hdx. bindE R d1 H1. bindE R d2 H2.
  cbn in H0. injection H0 as <-. cbn [skipn] in H2. cbn in H1. injection H1 as <-.
  change (existsb (Z.eqb 2110) [2110; 2310]%Z) with true in R. cbv iota in R.
  bindE R ax1 H6. cbn in H6. injection H6 as <-.
  change (2110 =? 2110)%Z with true in R. cbv iota in R. injection R as <-.
  match type of H2 with forR _ _ ?dd = _ =>
    destruct (append_all [b] dd d2 [] [] [dz] [nums (ax_nums a)] [PStr name]) as (es & F & C1 & C2 & C3 & C4 & C5); [look | look | look | look | look | exact H2 |] end.
  inversion F as [| ? e ? ? (Q1 & Q2 & Q3 & Q4) F']; subst. inversion F'; subst.
  assert (D0 : exists r, dz = pv r).
  { destruct (ax_len a =? 1)%nat; [injection Hdx as <-; exists (NI 0); reflexivity |]. bindE Hdx incr Hi. injection Hdx as <-.
    destruct (uniform incr (ax_nums a)); [exists (NF incr) | exists (NI 0)]; reflexivity. }
  destruct D0 as (r0 & ->).
  assert (D1 : exists r, n_dx e = pv r) by (destruct Q4 as [-> | (i & ->)]; [exists (NI 0) | exists (NF i)]; reflexivity).
  destruct D1 as (r1 & D1).
  exists name, (n_nm e), r0, r1. split; [exact Hname |]. split; [exact Q3 |].
  cbn [map app] in C3, C5. rewrite D1 in C3.
  split; [rewrite !attr_upd_other by discriminate; exact C5 |]. split; [rewrite !attr_upd_other by discriminate; exact C3 |].
  repeat split; look.
Qed.
Lemma axes_2310 nvpm v a b (d d' : na) : v_axes v = [a; b] -> defineAxes E 2310 nvpm v d = Ok d' ->
  exists s t x0 x1 y0, getBestName (ax_info a) = Ok s /\ getBestName (ax_info b) = Ok t /\
    nth_error (ax_vals b) 0 = Some x0 /\ nth_error (ax_vals b) 1 = Some x1 /\ nth_error (ax_items b) 0 = Some y0 /\
    attr d' kXNAME = strs_pv [s; t] /\ attr d' kDX = PList (map (fun _ => if is_time b then PNone else PNum (num_minus x1 x0)) (ax_vals a)) /\
    attr d' kX = PList (map (fun x => PList [x; PList (ax_items b)]) (ax_items a)) /\
    attr d' kNX = PList (map (fun _ => PInt (Z.of_nat (ax_len b))) (ax_vals a)) /\
    attr d' kA = PList [PList (map (fun _ => PInt (Z.of_nat (ax_len b))) (ax_vals a)); PList (map (fun _ => y0) (ax_vals a));
                        PList (map (fun _ => if is_time b then PNone else PNum (num_minus x1 x0)) (ax_vals a))] /\
    attr d' kANAME = PList [PStr (number_name s); PStr (first_name s); PStr (step_name s)] /\
    attr d' kAMISS = PList (repeat (PNum (e_aux_miss E)) 3) /\ attr d' kASCAL = PList (repeat (PNum (e_one E)) 3).
Proof.
  unfold defineAxes. intros Ev R. cbv zeta in R. rewrite Ev in R. bindE R ax0 H0. bindE R name Hname. bindE R dz Hdx. bindE R d1 H1. bindE R d2 H2.
  cbn in H0. injection H0 as <-. cbn [skipn] in H2. cbn in H1. injection H1 as <-.
  change (existsb (Z.eqb 2310) [2110; 2310]%Z) with true in R. cbv iota in R.
  bindE R ax1 H6. cbn in H6. injection H6 as <-.
  change (2310 =? 2110)%Z with false in R. cbv iota in R. bindE R incr Hi. bindE R y0 Hx0. injection R as <-.
  match type of H2 with forR _ _ ?dd = _ =>
    destruct (append_all [b] dd d2 [] [] [dz] [nums (ax_nums a)] [PStr name]) as (es & F & C1 & C2 & C3 & C4 & C5); [look | look | look | look | look | exact H2 |] end.
  inversion F as [| ? e ? ? (Q1 & Q2 & Q3 & Q4) F']; subst. inversion F'; subst.
  unfold interval in Hi. unfold nth_res in Hx0, Hi.
  destruct (nth_error (ax_vals b) 1) as [x1 |] eqn:X1; [| discriminate Hi]. cbn [of_opt bindR] in Hi.
  destruct (nth_error (ax_vals b) 0) as [x0 |] eqn:X0; [| discriminate Hi]. cbn [of_opt bindR option_map] in Hi. injection Hi as <-.
  destruct (nth_error (ax_items b) 0) as [z0 |] eqn:Z0; [| discriminate Hx0]. cbn [of_opt] in Hx0. injection Hx0 as ->.
  exists name, (n_nm e), x0, x1, y0. split; [exact Hname |]. split; [exact Q3 |]. do 3 (split; [first [reflexivity | assumption] |]).
  cbn [map app] in C5. split; [rewrite !attr_upd_other by discriminate; exact C5 |].
  repeat split; look.
Qed.
Lemma aux_after aux ln lm ls lv (d1 d' : na) : attr d1 kANAME = PList ln -> attr d1 kAMISS = PList lm -> attr d1 kASCAL = PList ls -> attr d1 kA = PList lv ->
  defineNAAuxVars E aux d1 = Ok d' ->
  exists es, Forall2 (entry_for (e_fill E)) aux es /\ attr d' kANAME = PList (ln ++ names es) /\ attr d' kAMISS = PList (lm ++ misses es) /\
    attr d' kASCAL = PList (ls ++ scales es) /\ attr d' kA = PList (lv ++ arrays es) /\ attr d' kNAUXV = PInt (Z.of_nat (length lv + length aux)).
Proof.
  intros An Am As Av R2.
  assert (G : forall k, (match attr d1 k with PList _ => True | _ => False end) -> k <> kIGN -> d1 k = Some (attr d1 k)).
  { intros k. unfold attr. destruct (d1 k); [reflexivity |]. destruct k; cbn; intros; try contradiction; congruence. }
  unfold defineNAAuxVars in R2. cbv zeta in R2. cbn [fold_left] in R2.
  rewrite (G kANAME) in R2 by first [rewrite An; exact I | discriminate]. rewrite (G kAMISS) in R2 by first [rewrite Am; exact I | discriminate].
  rewrite (G kASCAL) in R2 by first [rewrite As; exact I | discriminate]. rewrite (G kA) in R2 by first [rewrite Av; exact I | discriminate].
  bindE R2 d3 H3. bindE R2 al Hal. injection R2 as <-.
  assert (Nd : NoDup [kANAME; kAMISS; kASCAL; kA]). { repeat constructor; cbn; intuition discriminate. }
  destruct (var_entries E _ _ _ _ Nd _ _ _ _ _ _ _ H3 An Am As Av) as (es & F & An3 & Am3 & As3 & Av3).
  exists es. split; [exact F |]. rewrite !attr_upd_other by discriminate. repeat (split; [assumption |]).
  rewrite attr_upd_same. rewrite Av3 in Hal. injection Hal as <-. rewrite app_length. unfold arrays. rewrite map_length.
  rewrite (Forall2_len _ _ _ F). reflexivity.
Qed.
End Profile.

Section Converted.
Context {num : Type} {Num : NumOps num} {Ar : ArithOps num}.
Variable E : env num.
Local Notation xvar := (xvar num).
Local Notation na := (na num).
Definition shared (d : na) (a b : Xarray.axis num) (s t : str) : Prop :=
  getBestName (ax_info a) = Ok s /\ getBestName (ax_info b) = Ok t /\ attr d kXNAME = strs_pv [s; t] /\
  attr d kX = PList (map (fun x => PList [x; PList (ax_items b)]) (ax_items a)) /\
  attr d kNX = PList (map (fun _ => PInt (Z.of_nat (ax_len b))) (ax_vals a)).
Definition aux_part (c : collected num) (d : na) (ln lm ls lv : list (pyv num)) : Prop :=
  exists es, Forall2 (entry_for (e_fill E)) (c_aux c) es /\ attr d kANAME = PList (ln ++ names es) /\ attr d kAMISS = PList (lm ++ misses es) /\
    attr d kASCAL = PList (ls ++ scales es) /\ attr d kA = PList (lv ++ arrays es) /\ attr d kNAUXV = PInt (Z.of_nat (length lv + length (c_aux c))).
Lemma converted_profile req globals (vars : list xvar) cs c d ffi a b v rest : ~ In (lit "file_format_index") (map fst globals) ->
  convert E req globals vars = Ok (Some cs) -> In c cs -> c_na c = Some d -> d kFFI = Some (PInt ffi) -> c_main c = v :: rest -> v_axes v = [a; b] ->
  (ffi = 2110%Z -> exists s t r0 r1, shared d a b s t /\ attr d kDX = nums_pv [r0; r1] /\
     aux_part c d [PStr (number_name s)] [PNum (e_aux_miss E)] [PNum (e_one E)] [PList (map (fun _ => PInt (Z.of_nat (ax_len b))) (ax_vals a))]) /\
  (ffi = 2310%Z -> exists s t x0 x1 y0, shared d a b s t /\ nth_error (ax_vals b) 0 = Some x0 /\ nth_error (ax_vals b) 1 = Some x1 /\ nth_error (ax_items b) 0 = Some y0 /\
     attr d kDX = PList (map (fun _ => if is_time b then PNone else PNum (num_minus x1 x0)) (ax_vals a)) /\
     aux_part c d [PStr (number_name s); PStr (first_name s); PStr (step_name s)] (repeat (PNum (e_aux_miss E)) 3) (repeat (PNum (e_one E)) 3)
       [PList (map (fun _ => PInt (Z.of_nat (ax_len b))) (ax_vals a)); PList (map (fun _ => y0) (ax_vals a)); PList (map (fun _ => if is_time b then PNone else PNum (num_minus x1 x0)) (ax_vals a))]).
Proof.
  intros Ng R I Nd Hf Ev Va. destruct (convert_each E _ _ _ _ _ R I) as (vs & C & _ & _).
  destruct (collect_steps E _ _ _ _ _ C Nd) as (an & d1 & d2 & g & d3 & v0 & ax0 & Ha & H1 & H2 & Hg & H3 & _ & _ & Ed & Em & Ea).
  assert (Gf : gs_na g kFFI = d2 kFFI).
  { unfold defineNAGlobals in Hg.
    refine (forR_inv (fun g => gs_na g kFFI = d2 kFFI) _ _ _ _ _ Hg eq_refl).
    intros x s s' Ix Q P. rewrite <- P. apply (item_ffi E x s s'); [| exact Q]. intros Q'. apply Ng. rewrite <- Q'. apply in_map, Ix. }
  assert (Fi : a_ffi an = ffi).
  { rewrite Ed, (same_header E ax0 d3 kFFI) in Hf by (cbn; intuition discriminate). rewrite (comments_frame _ _ _ _ H3 kFFI) in Hf by (cbn; intuition discriminate).
    rewrite Gf, (same_aux E _ _ _ H2 kFFI) in Hf by (cbn; intuition discriminate). rewrite (same_vars E _ _ _ _ _ H1 kFFI) in Hf by (cbn; intuition discriminate).
    cbn in Hf. congruence. }
  assert (Fr : forall k, ~ In k (global_keys ++ [kNCOM; kNNCOML; kSCOM; kNSCOML] ++ [kRDATE; kDATE; kIVOL; kNVOL]) -> attr d k = attr d2 k).
  { intros k Nk. rewrite Ed. rewrite !in_app_iff in Nk. unfold attr. rewrite (same_header E ax0 d3 k) by tauto. rewrite (comments_frame _ _ _ _ H3 k) by tauto.
    rewrite (same_globals E _ _ _ Hg k) by tauto. reflexivity. }
  assert (Fa : forall k, ~ In k (aux_keys ++ global_keys ++ [kNCOM; kNNCOML; kSCOM; kNSCOML] ++ [kRDATE; kDATE; kIVOL; kNVOL]) -> attr d k = attr d1 k).
  { intros k Nk. rewrite in_app_iff in Nk. rewrite Fr by tauto. unfold attr. rewrite (same_aux E _ _ _ H2 k) by tauto. reflexivity. }
  unfold defineNAVars in H1. cbv zeta in H1. bindE H1 d0 H0. rewrite <- Em, Ev in H1. rewrite Fi in H1. rewrite <- Ea in H2.
  split; intros ->.
  - destruct (axes_2110 E _ _ _ _ _ _ Va H1) as (s & t & r0 & r1 & B1 & B2 & B4 & B5 & B6 & B7 & B8 & B9 & B10 & B11).
    exists s, t, r0, r1. split; [| split; [rewrite Fa by (cbn; intuition discriminate); exact B5 |]].
    + unfold shared. rewrite !Fa by (cbn; intuition discriminate). auto 10.
    + destruct (aux_after E _ _ _ _ _ _ _ B9 B10 B11 B8 H2) as (es & K). exists es. rewrite !Fr by (cbn; intuition discriminate). exact K.
  - destruct (axes_2310 E _ _ _ _ _ _ Va H1) as (s & t & x0 & x1 & y0 & B1 & B2 & X0 & X1 & Y0 & B4 & B5 & B6 & B7 & B8 & B9 & B10 & B11).
    exists s, t, x0, x1, y0. split; [unfold shared; rewrite !Fa by (cbn; intuition discriminate); auto 10 |]. do 3 (split; [assumption |]).
    split; [rewrite Fa by (cbn; intuition discriminate); exact B5 |].
    destruct (aux_after E _ _ _ _ _ _ _ B9 B10 B11 B8 H2) as (es & K). exists es. rewrite !Fr by (cbn; intuition discriminate). exact K.
Qed.
(** two axes of numbers *)
Definition shared_nums (d : na) (a b : Xarray.axis num) (s t : str) : Prop :=
  getBestName (ax_info a) = Ok s /\ getBestName (ax_info b) = Ok t /\ ax_nums a = ax_vals a /\ attr d kXNAME = strs_pv [s; t] /\
  attr d kX = PList (map (fun x => PList [PNum x; nums (ax_vals b)]) (ax_vals a)) /\
  attr d kNX = PList (map (fun _ => PInt (Z.of_nat (ax_len b))) (ax_vals a)).
Lemma shared_num d a b s t : ax_time a = None -> ax_time b = None -> shared d a b s t -> shared_nums d a b s t.
Proof.
  intros Ta Tb (S1 & S2 & S3 & S4 & S5). rewrite (items_num _ Ta), (items_num _ Tb), map_map in S4.
  repeat (split; [first [assumption | unfold ax_nums; rewrite Ta; reflexivity] |]). exact S5.
Qed.
Lemma converted_numbers req globals (vars : list xvar) cs c d ffi a b v rest : ~ In (lit "file_format_index") (map fst globals) ->
  convert E req globals vars = Ok (Some cs) -> In c cs -> c_na c = Some d -> d kFFI = Some (PInt ffi) -> c_main c = v :: rest -> v_axes v = [a; b] ->
  ax_time a = None -> ax_time b = None ->
  (ffi = 2110%Z -> exists s t r0 r1, shared_nums d a b s t /\ attr d kDX = nums_pv [r0; r1] /\
     aux_part c d [PStr (number_name s)] [PNum (e_aux_miss E)] [PNum (e_one E)] [PList (map (fun _ => PInt (Z.of_nat (ax_len b))) (ax_vals a))]) /\
  (ffi = 2310%Z -> exists s t x0 x1, shared_nums d a b s t /\ nth_error (ax_vals b) 0 = Some x0 /\ nth_error (ax_vals b) 1 = Some x1 /\
     attr d kDX = PList (map (fun _ => PNum (num_minus x1 x0)) (ax_vals a)) /\
     aux_part c d [PStr (number_name s); PStr (first_name s); PStr (step_name s)] (repeat (PNum (e_aux_miss E)) 3) (repeat (PNum (e_one E)) 3)
       [PList (map (fun _ => PInt (Z.of_nat (ax_len b))) (ax_vals a)); PList (map (fun _ => PNum x0) (ax_vals a)); PList (map (fun _ => PNum (num_minus x1 x0)) (ax_vals a))]).
Proof.
  intros Ng R I Nd Hf Ev Va Ta Tb. destruct (converted_profile _ _ _ _ _ _ _ _ _ _ _ Ng R I Nd Hf Ev Va) as (K1 & K2). split; intros Q.
  - destruct (K1 Q) as (s & t & r0 & r1 & S & K). exists s, t, r0, r1. split; [exact (shared_num _ _ _ _ _ Ta Tb S) | exact K].
  - destruct (K2 Q) as (s & t & x0 & x1 & y0 & S & X0 & X1 & Y0 & K). exists s, t, x0, x1. split; [exact (shared_num _ _ _ _ _ Ta Tb S) |].
    rewrite (items_num _ Tb), nth_error_map, X0 in Y0. injection Y0 as <-. unfold is_time in K. rewrite Tb in K. auto.
Qed.
End Converted.

(** The names of the auxiliary variables that describe the second axis can be
    written. *)
Lemma framed_name (p q s : str) c0 c1 q' : Records.one_line p -> Records.one_line q -> Records.one_line s -> is_space c0 = false -> is_space c1 = false ->
  c1 <> c_rbrace -> c1 <> 1%N -> (exists p', p = c0 :: p') -> q = q' ++ [c1] -> Records.name_ok (p ++ s ++ q).
Proof.
  intros Lp Lq Ls S0 S1 Nb N1 (p' & ->) ->. split; [split |split].
  - unfold Records.one_line in *. rewrite !in_app_iff in *. tauto.
  - split; [intros c t Q; cbn in Q; injection Q as <- _; exact S0 |].
    intros c t Q. rewrite app_assoc, (app_assoc (_ ++ _) q') in Q. apply app_inj_tail in Q as (_ & <-). exact S1.
  - intros p0 g b (Q & _ & _ & _ & _ & _ & Bl).
    destruct b as [| b0 b] using rev_ind.
    + rewrite app_nil_r in Q. rewrite app_assoc, (app_assoc (_ ++ _) q') in Q. rewrite (app_assoc p0), (app_assoc (p0 ++ _)) in Q.
      apply app_inj_tail in Q as (_ & Q). congruence.
    + rewrite app_assoc, (app_assoc (_ ++ _) q') in Q. rewrite (app_assoc p0), (app_assoc (p0 ++ _)), (app_assoc ((p0 ++ _) ++ _)) in Q. rewrite (app_assoc _ b) in Q.
      apply app_inj_tail in Q as (_ & Q). subst b0. unfold blank in Bl. apply Forall_app in Bl as (_ & Bl). inversion Bl. congruence.
  - intros t Q. rewrite app_assoc, (app_assoc (_ ++ _) q') in Q. apply app_inj_tail in Q as (_ & Q). congruence.
Qed.
Lemma described_names s : Records.name_ok s -> Records.name_ok (number_name s) /\ Records.name_ok (first_name s) /\ Records.name_ok (step_name s).
Proof.
  intros ((L & _) & _). unfold number_name, first_name, step_name.
  assert (O : forall t, negb (mem_chr c_nl t) && negb (mem_chr c_cr t) = true -> Records.one_line t).
  { intros t Q. apply andb_prop in Q as (Q1 & Q2). apply negb_true_iff in Q1, Q2. split; intros J; [apply mem_chr_false in Q1 | apply mem_chr_false in Q2]; contradiction. }
  split; [| split].
  - apply (framed_name _ _ _ 78%N 115%N (lit "' values recorded in subsequent data record")); auto; try reflexivity; try discriminate; eexists; reflexivity.
  - apply (framed_name _ _ _ 39%N 116%N (lit "' value for first data poin")); auto; try reflexivity; try discriminate; eexists; reflexivity.
  - apply (framed_name _ _ _ 39%N 116%N (lit "' incremen")); auto; try reflexivity; try discriminate; eexists; reflexivity.
Qed.
Lemma const_map {A B} (y : B) (l : list A) n : length l = n -> map (fun _ => y) l = repeat y n.
Proof. intros <-. induction l; cbn; congruence. Qed.

(** ** C108 *)
(** Format 2110: everything comes back, numbers as they are printed.  The number
    of values of the second axis must be readable as printed, see below. *)
Theorem C108_2110_partial : forall num (Num : NumOps num) (Ar : ArithOps num) (E : env num) req globals (vars : list (xvar num)) cs c d a b (o : opts num) g,
  plain_opts o g -> ~ In (lit "file_format_index") (map fst globals) -> ~ In (lit "no_of_nasa_ames_header_lines") (map fst globals) ->
  convert E req globals vars = Ok (Some cs) -> In c cs -> profile_table (e_fill E) 2110 c d a b ->
  num_trunc (g (num_of_Z (Z.of_nat (ax_len b)))) = Some (Z.of_nat (ax_len b)) ->
  forall h, exists file hdr d2 d', write_body o C2110 false (mkW [] h d) = (Ok tt, mkW file hdr d2) /\ read_file file 0 = Ok (C2110, d') /\
    (forall k, In k [kFFI; kNIV; kNX; kXNAME; kNV; kVNAME; kNAUXV; kANAME] -> attr d' k = attr d k) /\
    attr d' kDX = floats (attr d kDX) /\
    attr d' kX = PList (map (fun x => PList [PNum (g x); PList (map (fun y => PNum (g y)) (ax_vals b))]) (ax_vals a)) /\
    attr d' kVSCAL = PList (map (fun _ => PNum (num_of_Z 1)) (c_main c)) /\
    attr d' kVMISS = PList (map (miss_read (e_fill E)) (c_main c)) /\
    attr d' kV = PList (map (returned_array g (e_fill E)) (c_main c)) /\
    attr d' kASCAL = PList (PNum (e_one E) :: map (fun _ => PNum (num_of_Z 1)) (c_aux c)) /\
    attr d' kAMISS = PList (PNum (e_aux_miss E) :: map (miss_read (e_fill E)) (c_aux c)) /\
    attr d' kA = PList (PList (map (fun _ => PNum (g (num_of_Z (Z.of_nat (ax_len b))))) (ax_vals a)) :: map (returned g (e_fill E)) (c_aux c)).
Proof.
  intros num Num Ar E req globals vars cs c d a b o g Po Nf Nl R I (Nd & Hf & (v & rest & Ev & Va) & Ta & Tb & Wh & Fc & Fa & Na & Nv) Cnt h.
  destruct (C75_values _ _ _ E _ _ _ _ _ R I) as (dd & es & Nd' & F & Anv & An & Am & As & Av). rewrite Nd in Nd'. injection Nd' as <-.
  destruct (converted_numbers E _ _ _ _ _ _ _ _ _ _ _ Nf R I Nd Hf Ev Va Ta Tb) as (P1 & _).
  destruct (P1 eq_refl) as (s & t & r0 & r1 & (S1 & S2 & S3 & S4 & S5 & S6) & Dx & (fs & F' & Bn & Bm & Bs & Bv & Bx)). clear P1.
  assert (Iv : In v (c_main c)) by (rewrite Ev; left; reflexivity).
  destruct (niv_of E _ _ _ _ _ _ _ R I Nd Iv) as (Ni & Iv1 & Nv1 & Nh). specialize (Nh Nl). rewrite Va in Ni. cbn [length] in Ni.
  destruct (C52_counts _ _ _ E _ _ _ _ _ R I) as (dd & scom & ncom & Nd' & Z1 & Z2 & Z3 & C1 & C2 & C3). rewrite Nd in Nd'. injection Nd' as <-.
  destruct Wh as ((on & og & sn & mn & O1 & O2 & O3 & O4 & T1 & T2 & T3 & T4) & (dt & Dt) & (rd & Rd) & Cr).
  destruct (field_entries E _ _ _ _ Fc F) as (En & Em & Es & Ea & Ll & Lb).
  destruct (rec_entries E _ _ _ Fa F') as (Fn & Fm & Fs & Fv & Fl & Fb).
  cbn [length] in Ea, Ll. set (cnt := NI (num:=num) (Z.of_nat (ax_len b))).
  set (r := mk2110 (num:=num) (mkCommon on og sn mn 1 1 dt rd scom ncom) (map (rec_var E) (c_main c))
              (Records.mkVar (NF (e_one E)) (NF (e_aux_miss E)) (number_name s) :: map (rec_var E) (c_aux c)) (r0, r1) (s, t)
              (map (fun x => mkMark (NF x) (map NF (ax_vals b))) (ax_vals a))
              (map (fun _ => cnt) (ax_vals a) :: map (rec_vals E) (c_aux c)) (map (rec_array E 1) (c_main c))).
  assert (Ns : Records.name_ok s) by (apply (Na a); [left; reflexivity | exact S1]).
  assert (Nt : Records.name_ok t) by (apply (Na b); [right; left; reflexivity | exact S2]).
  assert (Le : length (c_main c) = length es) by (clear - F; induction F; cbn; congruence).
  assert (Xn : forall l : list num, nums_pv (map NF l) = nums l) by (intros l; unfold nums_pv, nums; now rewrite map_map).
  assert (Hr : has d (items2110 r)).
  { unfold has. apply Forall_forall2. unfold items2110, r.
    cbn [r5_common r5_vars r5_aux r5_dx r5_xname r5_x r5_a r5_v fst snd].
    apply Forall_app. split; [| apply Forall_app; split; [| apply Forall_app; split]].
    - unfold common_items. cbn [c_oname c_org c_sname c_mname c_ivol c_nvol c_date c_rdate c_scom c_ncom].
      repeat constructor; cbn [fst snd]; try assumption; apply attr_some; try discriminate; try assumption.
    - unfold var_items. unfold len_pv. rewrite map_length.
      repeat constructor; cbn [fst snd]; apply attr_some; try discriminate; try assumption.
      + rewrite As, Es. reflexivity.
      + rewrite Am, Em. reflexivity.
      + rewrite An, En. reflexivity.
    - unfold aux_items. unfold len_pv. cbn [length]. rewrite map_length.
      repeat constructor; cbn [fst snd]; apply attr_some; try discriminate.
      + rewrite Bx. reflexivity.
      + rewrite Bs, Fs. reflexivity.
      + rewrite Bm, Fm. reflexivity.
      + rewrite Bn, Fn. reflexivity.
    - repeat constructor; cbn [fst snd]; apply attr_some; try discriminate.
      + exact Dx.
      + exact S4.
      + rewrite S5, map_map. f_equal. apply map_ext. intros x. unfold mark_pv. cbn [m_x m_in pv]. now rewrite Xn.
      + rewrite S6, map_map. f_equal. apply map_ext. intros x. unfold len_pv. cbn [m_in]. now rewrite map_length.
      + rewrite Bv, Fv. cbn [map app]. do 2 f_equal. unfold nums_pv. rewrite map_map. reflexivity.
      + rewrite Av, Ea. reflexivity. }
  assert (Or : ok2110 g r).
  { unfold ok2110, r. cbn [r5_common r5_vars r5_aux r5_dx r5_xname r5_x r5_a r5_v fst snd].
    split; [| split; [| split; [| split; [discriminate | split; [exact Ns | split; [exact Nt | split; [| split; [| split; [| split]]]]]]]]].
    - unfold common_ok. cbn [c_oname c_org c_sname c_mname c_scom c_ncom]. do 4 (split; [assumption |]).
      split; apply Forall_forall; intros u J; rewrite Forall_forall in Z3, C3;
        (split; [first [exact (Z3 u J) | exact (C3 u J)] | first [exact (Cr kSCOM scom u (or_introl eq_refl) Z1 J) | exact (Cr kNCOM ncom u (or_intror eq_refl) C1 J)]]).
    - unfold vars_ok. rewrite Ev at 1. split; [discriminate |]. apply Forall_forall. intros q J. apply in_map_iff in J. destruct J as (w & <- & J).
      rewrite Forall_forall in Lb. destruct (Lb w J) as (u & Hu). unfold rec_var. cbn [Records.v_name]. rewrite Hu. apply (Nv w u); [apply in_or_app; auto | exact Hu].
    - unfold auxs_ok. constructor; [apply described_names, Ns |]. apply Forall_forall. intros q J. apply in_map_iff in J. destruct J as (w & <- & J).
      rewrite Forall_forall in Fb. destruct (Fb w J) as (u & Hu). unfold rec_var. cbn [Records.v_name]. rewrite Hu. apply (Nv w u); [apply in_or_app; auto | exact Hu].
    - cbn [length]. now rewrite !map_length.
    - now rewrite !map_length.
    - constructor; [now rewrite !map_length |]. rewrite map_length. exact Fl.
    - unfold counts_ok. cbn [nth]. clear - Cnt. induction (ax_vals a) as [| x l IH]; cbn [map]; constructor; [| exact IH]. cbn [m_in]. rewrite map_length. exact Cnt.
    - apply Forall_forall. intros w J. rewrite Forall_forall in Ll. destruct (Ll w J) as (L1 & L2). unfold inner_ok. unfold ax_len in L1. clear - L1 L2.
      revert w L1 L2. induction (ax_vals a) as [| x l IH]; intros [| y w] L1 L2; try discriminate L1; cbn [map]; constructor.
      + cbn [m_in]. rewrite map_length. inversion L2 as [| ? ? Q _]; subst. destruct Q as (Q & _). exact Q.
      + apply IH; [now injection L1 | now inversion L2]. }
  destruct Po as (P1 & P2 & P3 & P4).
  destruct (rt2110 o P1 P2 P3 g P4 r d _ Or Hr Nh h) as (file & hdr & d2 & Wf & data & d' & _ & Rf & Dd).
  exists file, hdr, d2, d'. split; [exact Wf |]. split; [exact Rf |].
  assert (G : forall k w, In (k, w) (items2110 (norm2110 g r)) -> attr d' k = w).
  { intros k w J. assert (Hd' : has d' (read_items (count_chr c_nl hdr) ++ items2110 (norm2110 g r))).
    { apply is_dict_has; [| exact Dd]. unfold items2110, aux_items. cbn [norm2110 r5_aux r map]. cbn; nodup. }
    unfold attr. rewrite (Hd' k w); [reflexivity |]. apply in_or_app. right. exact J. }
  assert (Ic : forall k w, In (k, w) (common_items (num:=num) 2110 2 (norm_common (r5_common r))) -> attr d' k = w).
  { intros k w J. apply G. unfold items2110. apply in_or_app. left. exact J. }
  assert (Iw : forall k w, In (k, w) (var_items (map norm_var (map (rec_var E) (c_main c)))) -> attr d' k = w).
  { intros k w J. apply G. unfold items2110. apply in_or_app. right. apply in_or_app. left. exact J. }
  assert (Ia : forall k w, In (k, w) (aux_items (map norm_var (r5_aux r))) -> attr d' k = w).
  { intros k w J. apply G. unfold items2110. apply in_or_app. right. apply in_or_app. right. apply in_or_app. left. exact J. }
  assert (Ir := fun k w J => G k w (in_or_app _ _ _ (or_intror (in_or_app _ _ _ (or_intror (in_or_app _ _ _ (or_intror J))))))).
  cbn [In norm2110 r5_dx r5_xname r5_x r5_a r5_v r fst snd] in Ir. cbn [r5_aux r map aux_items In norm_var Records.v_name Records.v_miss v_scal head_num val] in Ia.
  assert (Mv : forall vs, (forall w, In w vs -> miss_num (e_fill E) w <> None) -> map (@pv num) (map Records.v_miss (map norm_var (map (rec_var E) vs))) =
    map (miss_read (e_fill E)) vs).
  { intros vs Q. rewrite !map_map. apply map_ext_in. intros w J. specialize (Q w J). unfold miss_read, miss_num in *. unfold rec_var, rec_miss. cbn [norm_var Records.v_miss head_num pv val].
    destruct (Xarray.v_miss w) as [[| z | x | u | u] |]; try (now destruct Q); reflexivity. }
  assert (Ad : forall k w, d k = Some w -> attr d k = w) by (intros k w Q; unfold attr; rewrite Q; reflexivity).
  split; [| split; [| split; [| split; [| split; [| split; [| split; [| split]]]]]]].
  - intros k J. cbn [In] in J. destruct J as [<- | [<- | [<- | [<- | [<- | [<- | [<- | [<- | []]]]]]]]].
    + rewrite (Ad _ _ Hf). apply Ic. left. reflexivity.
    + rewrite Ni. apply Ic. right. left. reflexivity.
    + rewrite S6. apply Ir. do 3 right. left. rewrite !map_map. do 2 f_equal. apply map_ext. intros x. unfold len_pv. cbn [norm_mark m_in]. now rewrite !map_length.
    + rewrite S4. apply Ir. right. left. reflexivity.
    + rewrite Anv. apply Iw. left. unfold len_pv. rewrite !map_length. reflexivity.
    + rewrite An, En. apply Iw. do 3 right. left. unfold strs_pv. rewrite !map_map. reflexivity.
    + rewrite Bx. apply Ia. left. unfold len_pv. cbn [length]. rewrite !map_length. reflexivity.
    + rewrite Bn, Fn. apply Ia. do 3 right. left. unfold strs_pv. cbn [map app]. rewrite !map_map. reflexivity.
  - rewrite Dx. apply Ir. left. unfold nums_pv. cbn [map floats]. destruct r0, r1; reflexivity.
  - apply Ir. do 2 right. left. rewrite !map_map. do 2 f_equal. apply map_ext. intros x. unfold mark_pv, nums_pv. cbn [norm_mark m_x m_in data_num val pv].
    rewrite !map_map. reflexivity.
  - apply Iw. right. left. unfold nums_pv. rewrite !map_map. reflexivity.
  - apply Iw. do 2 right. left. unfold nums_pv. rewrite Mv; [reflexivity |]. intros w J. rewrite Forall_forall in Fc. apply (Fc w J).
  - apply Ir. do 5 right. left. do 2 f_equal. rewrite !map_map. apply map_ext_in. intros w J. rewrite Forall_forall in Fc.
    exact (field_returned E g _ _ w (Fc w J)).
  - apply Ia. right. left. unfold nums_pv. cbn [map pv]. rewrite !map_map. reflexivity.
  - apply Ia. do 2 right. left. f_equal. unfold nums_pv. cbn [map pv]. do 2 f_equal. apply Mv.
    intros w J. rewrite Forall_forall in Fa. apply (Fa w J).
  - apply Ir. do 4 right. left. cbn [map]. do 3 f_equal.
    + unfold nums_pv. rewrite !map_map. reflexivity.
    + rewrite !map_map. apply map_ext_in. intros w J. rewrite Forall_forall in Fa. exact (rec_returned E g _ w (Fa w J)).
Qed.
Print Assumptions C108_2110_partial.

(** ** Writing FFI 2310 uses only the first item of DX and the first item of
    each mark in X *)
Section Blind.
Context {num : Type} `{NumOps num}.
Variable o : opts num.
Definition alike (d e : na num) : Prop := (forall k, k <> kX -> k <> kDX -> d k = e k) /\
  index (attr d kDX) 0 = index (attr e kDX) 0 /\ range_len (attr d kX) = range_len (attr e kX) /\
  forall m, index2 (attr d kX) m 0 = index2 (attr e kX) m 0.
Definition sims {A} (m n : W num A) : Prop := forall f h d e, alike d e ->
  exists r f' h' d' e', m (mkW f h d) = (r, mkW f' h' d') /\ n (mkW f h e) = (r, mkW f' h' e') /\ alike d' e'.
Local Notation blind m := (sims m m).
Local Ltac same := intros f h d e L; do 5 eexists; split; [reflexivity |]; split; [reflexivity | exact L].
Lemma sims_ret {A} (a : A) : blind (retW a). Proof. same. Qed.
Lemma sims_lift {A} (r : Res A) : blind (liftW r). Proof. same. Qed.
Lemma sims_fwrite t : blind (fwrite t). Proof. same. Qed.
Lemma sims_hwrite t : blind (hwrite t). Proof. same. Qed.
Lemma sims_flush : blind flushHeader. Proof. same. Qed.
Lemma sims_bind {A B} (m n : W num A) (k l : A -> W num B) : sims m n -> (forall a, sims (k a) (l a)) -> sims (bindW m k) (bindW n l).
Proof.
  intros Bm Bk f h d e L. destruct (Bm f h d e L) as (r & f1 & h1 & d1 & e1 & M1 & M2 & L1).
  unfold bindW. rewrite M1, M2. destruct r as [x | x].
  - exact (Bk x f1 h1 d1 e1 L1).
  - exists (Err x), f1, h1, d1, e1. auto.
Qed.
Lemma sims_self k : k <> kX -> k <> kDX -> blind (self k).
Proof.
  intros N1 N2 f h d e L. exists (Ok (attr d k)), f, h, d, e. unfold self. cbn [w_na]. split; [reflexivity |]. split; [| exact L]. unfold attr. rewrite <- (proj1 L k N1 N2). reflexivity.
Qed.
Lemma sims_fix : blind (fixHeaderLength o).
Proof.
  intros f h d e L. unfold fixHeaderLength. cbn [w_head w_na w_file].
  replace (attr e kFFI) with (attr d kFFI) by (unfold attr; rewrite (proj1 L kFFI) by discriminate; reflexivity).
  destruct (fmt_d _); [| do 5 eexists; split; [reflexivity |]; split; [reflexivity |]; auto].
  destruct (annotateLine _ _ _ _); [| do 5 eexists; split; [reflexivity |]; split; [reflexivity |]; auto].
  destruct (lines h); do 5 eexists; (split; [reflexivity |]; split; [reflexivity |]; auto).
Qed.
Lemma sims_reverse k : k <> kX -> k <> kDX -> blind (reverse_in_place k).
Proof.
  intros N1 N2. apply sims_bind; [apply sims_self; assumption |]. intros v. apply sims_bind; [apply sims_lift |]. intros w f h d e (L & L1 & L2 & L3).
  exists (Ok tt), f, h, (upd d k w), (upd e k w). split; [reflexivity |]. split; [reflexivity |].
  split; [| rewrite !attr_upd_other by congruence; auto]. intros k' M1 M2. unfold upd. destruct (key_beq k k'); [reflexivity | apply L; assumption].
Qed.
Lemma sims_for {A} (l : list A) f g : (forall a, sims (f a) (g a)) -> sims (forW l f) (forW l g).
Proof. induction l as [| x l IH]; cbn [forW]; intros Bf; [apply sims_ret |]. apply sims_bind; [apply Bf | intros _; apply IH, Bf]. Qed.
Lemma sims_dx {B} (k : pyv num -> W num B) : (forall x, blind (k x)) -> blind (bindW (self kDX) (fun v => bindW (liftW (index v 0)) k)).
Proof.
  intros Bk f h d e L. unfold bindW at 1 3, self. cbn [w_na]. unfold bindW, liftW. rewrite <- (proj1 (proj2 L)).
  destruct (index (attr d kDX) 0); [apply Bk, L | do 5 eexists; split; [reflexivity |]; split; [reflexivity | exact L]].
Qed.
Lemma sims_x {B} (k : pyv num -> list nat -> W num B) : (forall X Y ms, (forall m, index2 X m 0 = index2 Y m 0) -> sims (k X ms) (k Y ms)) ->
  blind (bindW (self kX) (fun X => bindW (liftW (range_len X)) (k X))).
Proof.
  intros Bk f h d e L. unfold bindW at 1 3, self. cbn [w_na]. unfold bindW, liftW. rewrite <- (proj1 (proj2 (proj2 L))).
  destruct (range_len (attr d kX)); [apply Bk; [apply L | exact L] | do 5 eexists; split; [reflexivity |]; split; [reflexivity | exact L]].
Qed.
Local Ltac go := repeat first
  [ apply sims_reverse; discriminate | apply sims_dx; intros ? | apply sims_bind; [| intros ?] | apply sims_ret | apply sims_lift | apply sims_fwrite | apply sims_hwrite | apply sims_flush
  | apply sims_fix | apply sims_self; discriminate
  | match goal with |- context [if ?b then _ else _] => destruct b | |- context [match range ?x with _ => _ end] => destruct (range x) end ].
Lemma writes_alike h d e : alike d e -> exists r file hdr d' e',
  write_body o C2310 false (mkW [] h d) = (r, mkW file hdr d') /\ write_body o C2310 false (mkW [] h e) = (r, mkW file hdr e').
Proof.
  intros L. assert (B : blind (write_body o C2310 false)).
  { unfold write_body. apply sims_bind; [intros f h0 d0 e0 L0; do 5 eexists; split; [reflexivity |]; split; [reflexivity | exact L0] |]. intros _. cbv iota. apply sims_bind; [| intros _].
    - cbn [writeHeader]. unfold writeHeader_2310, writeCommonHeader, writeVariablesHeaderSection, writeAuxVariablesHeaderSection, writeComments, hwrap, hwraps, wrapLine, wrapLines, self_int, self_list. go.
    - cbn [writeData]. unfold writeData_2310. apply sims_x. intros X Y ms Q. apply sims_for. intros m. rewrite (Q m).
      unfold write_x_aux, write_data_line, wrapLine, self_int. go. }
  destruct (B [] h d e L) as (r & f & hd & d' & e' & M1 & M2 & _). exists r, f, hd, d', e'. auto.
Qed.
End Blind.

Lemma counted_back {num} {Num : NumOps num} {Ar : ArithOps num} (st : num) (l : list num) : adds_up l ->
  (forall i x y, nth_error l i = Some x -> nth_error l (S i) = Some y -> num_same (num_minus y x) st = true) ->
  forall x0, nth_error l 0 = Some x0 -> counted x0 st (length l) = l.
Proof.
  induction l as [| x l IH]; intros Ad Sp x0 X0; [discriminate X0 |]. cbn in X0. injection X0 as ->. cbn [length counted]. f_equal.
  destruct l as [| y l]; [reflexivity |]. rewrite (Ad 0%nat x0 y st eq_refl eq_refl (Sp 0%nat x0 y eq_refl eq_refl)).
  apply IH; [intros i a b dd A B; exact (Ad (S i) a b dd A B) | intros i a b A B; exact (Sp (S i) a b A B) | reflexivity].
Qed.
Lemma index_map_at {num A} (F : A -> pyv num) (l : list A) m : index (PList (map F l)) m = match nth_error l m with Some x => Ok (F x) | None => Err EIndexError end.
Proof. unfold index, nth_res. cbn [as_list bindR]. rewrite nth_error_map. destruct (nth_error l m); reflexivity. Qed.

(** Format 2310, one variable: the values, the first axis, the auxiliary
    variables and the number of values of the second axis come back; of the
    second axis X has the first value only.  The auxiliary variables 1 to 3 are
    its number of values, first value and step, with which it can be counted;
    DX has the step with the decimals cut off. *)
Theorem C108_2310_partial : forall num (Num : NumOps num) (Ar : ArithOps num) (E : env num) req globals (vars : list (xvar num)) cs c d a b v (o : opts num) g x0 x1 k,
  plain_opts o g -> ~ In (lit "file_format_index") (map fst globals) -> ~ In (lit "no_of_nasa_ames_header_lines") (map fst globals) ->
  convert E req globals vars = Ok (Some cs) -> In c cs -> profile_table (e_fill E) 2310 c d a b -> c_main c = [v] -> ax_vals a <> [] ->
  num_trunc (g (num_of_Z (Z.of_nat (ax_len b)))) = Some (Z.of_nat (ax_len b)) ->
  nth_error (ax_vals b) 0 = Some x0 -> nth_error (ax_vals b) 1 = Some x1 -> num_trunc (g (num_minus x1 x0)) = Some k ->
  (forall h, exists file hdr d2 d', write_body o C2310 false (mkW [] h d) = (Ok tt, mkW file hdr d2) /\ read_file file 0 = Ok (C2310, d') /\
    (forall k, In k [kFFI; kNIV; kNX; kXNAME; kNV; kVNAME; kNAUXV; kANAME] -> attr d' k = attr d k) /\
    attr d' kDX = PList (PNum (num_minus x1 x0) :: map (fun _ => PInt k) (ax_vals a)) /\
    attr d' kX = PList (map (fun x => PList [PNum (g x); PList [PNum (g x0)]]) (ax_vals a)) /\
    attr d' kVSCAL = PList [PNum (num_of_Z 1)] /\ attr d' kVMISS = PList [miss_read (e_fill E) v] /\
    attr d' kV = PList [returned_array g (e_fill E) v] /\
    attr d' kASCAL = PList (repeat (PNum (e_one E)) 3 ++ map (fun _ => PNum (num_of_Z 1)) (c_aux c)) /\
    attr d' kAMISS = PList (repeat (PNum (e_aux_miss E)) 3 ++ map (miss_read (e_fill E)) (c_aux c)) /\
    attr d' kA = PList (PList (map (fun _ => PNum (g (num_of_Z (Z.of_nat (ax_len b))))) (ax_vals a)) :: PList (map (fun _ => PNum (g x0)) (ax_vals a)) ::
      PList (map (fun _ => PNum (g (num_minus x1 x0))) (ax_vals a)) :: map (returned g (e_fill E)) (c_aux c))) /\
  (evenly_spaced (ax_vals b) -> adds_up (ax_vals b) -> counted x0 (num_minus x1 x0) (ax_len b) = ax_vals b).
Proof.
  intros num Num Ar E req globals vars cs c d a b v o g x0 x1 tr Po Nf Nl R I (Nd & Hf & (v' & rest & Ev & Va) & Ta & Tb & Wh & Fc & Fa & Na & Nv) Ov Ne Cnt X0 X1 Tr.
  split. 2: { intros Sp Ad. apply counted_back; [exact Ad | | exact X0]. intros i x y A B. exact (Sp x0 x1 i x y X0 X1 A B). }
  intros h. rewrite Ov in Ev. injection Ev as <- <-.
  destruct (C75_values _ _ _ E _ _ _ _ _ R I) as (dd & es & Nd' & F & Anv & An & Am & As & Av). rewrite Nd in Nd'. injection Nd' as <-.
  destruct (converted_numbers E _ _ _ _ _ _ _ _ _ _ _ Nf R I Nd Hf Ov Va Ta Tb) as (_ & P1).
  destruct (P1 eq_refl) as (s & t & y0 & y1 & (S1 & S2 & S3 & S4 & S5 & S6) & Y0 & Y1 & Dx & (fs & F' & Bn & Bm & Bs & Bv & Bx)). clear P1.
  rewrite X0 in Y0. injection Y0 as <-. rewrite X1 in Y1. injection Y1 as <-.
  assert (Iv : In v (c_main c)) by (rewrite Ov; left; reflexivity).
  destruct (niv_of E _ _ _ _ _ _ _ R I Nd Iv) as (Ni & Iv1 & Nv1 & Nh). specialize (Nh Nl). rewrite Va in Ni. cbn [length] in Ni.
  destruct (C52_counts _ _ _ E _ _ _ _ _ R I) as (dd & scom & ncom & Nd' & Z1 & Z2 & Z3 & C1 & C2 & C3). rewrite Nd in Nd'. injection Nd' as <-.
  destruct Wh as ((on & og & sn & mn & O1 & O2 & O3 & O4 & T1 & T2 & T3 & T4) & (dt & Dt) & (rd & Rd) & Cr).
  destruct (field_entries E _ _ _ _ Fc F) as (En & Em & Es & Ea & Ll & Lb).
  destruct (rec_entries E _ _ _ Fa F') as (Fn & Fm & Fs & Fv & Fl & Fb).
  rewrite Ov in En, Em, Es, Ea, Ll, Lb, Anv. cbn [map] in En, Em, Es, Ea, Ll, Lb, Anv. cbn [length] in Ea, Ll, Anv.
  set (cnt := NI (num:=num) (Z.of_nat (ax_len b))). set (st := num_minus x1 x0) in *.
  set (der := Records.mkVar (NF (e_one E)) (NF (e_aux_miss E))).
  set (r := mk2310 (num:=num) (mkCommon on og sn mn 1 1 dt rd scom ncom) (rec_var E v)
              (der (number_name s) :: der (first_name s) :: der (step_name s) :: map (rec_var E) (c_aux c))
              (NF st :: map (fun _ => NI tr) (ax_vals a)) (s, t)
              (map NF (ax_vals a)) (map (fun _ => ax_len b) (ax_vals a))
              (map (fun _ => cnt) (ax_vals a) :: map (fun _ => NF x0) (ax_vals a) :: map (fun _ => NF st) (ax_vals a) :: map (rec_vals E) (c_aux c)) (rec_array E 1 v)).
  set (dc := upd (upd d kX (PList (map (fun x => PList [PNum x; nums_pv [NF x0]]) (ax_vals a)))) kDX (nums_pv (NF st :: map (fun _ => NI tr) (ax_vals a))) : na num).
  assert (Ns : Records.name_ok s) by (apply (Na a); [left; reflexivity | exact S1]).
  assert (Nt : Records.name_ok t) by (apply (Na b); [right; left; reflexivity | exact S2]).
  assert (Al : alike d dc).
  { split; [intros k K1 K2; unfold dc; rewrite !upd_other by congruence; reflexivity |]. unfold dc.
    rewrite attr_upd_same, attr_upd_other, attr_upd_same by discriminate. rewrite Dx, S5. split; [| split].
    - destruct (ax_vals a) as [| x l]; [congruence | reflexivity].
    - unfold range_len. cbn [as_list bindR]. now rewrite !map_length.
    - intros m. unfold index2. rewrite !index_map_at. destruct (nth_error (ax_vals a) m); reflexivity. }
  assert (Dk : forall k w, k <> kX -> k <> kDX -> d k = Some w -> dc k = Some w) by (intros k w K1 K2 Q; unfold dc; rewrite !upd_other by congruence; exact Q).
  apply Forall_cons_iff in Ll. destruct Ll as ((L1 & L2) & _). apply Forall_cons_iff in Lb. destruct Lb as ((u & Hu) & _).
  assert (Hr : has dc (items2310 r)).
  { unfold has. apply Forall_forall2. unfold items2310, r.
    cbn [r7_common r7_var r7_aux r7_dx r7_xname r7_x r7_nx r7_a r7_v fst snd nth].
    apply Forall_app. split; [| apply Forall_app; split; [| apply Forall_app; split]].
    - unfold common_items. cbn [c_oname c_org c_sname c_mname c_ivol c_nvol c_date c_rdate c_scom c_ncom].
      repeat constructor; cbn [fst snd]; (apply Dk; [discriminate | discriminate |]); try assumption; apply attr_some; try discriminate; try assumption.
    - unfold var_items. unfold len_pv. cbn [length].
      repeat constructor; cbn [fst snd]; (apply Dk; [discriminate | discriminate |]); apply attr_some; try discriminate; try assumption.
      + rewrite As, Es. reflexivity.
      + rewrite Am, Em. reflexivity.
      + rewrite An, En. reflexivity.
    - unfold aux_items. unfold len_pv. cbn [length]. rewrite map_length.
      repeat constructor; cbn [fst snd]; (apply Dk; [discriminate | discriminate |]); apply attr_some; try discriminate.
      + rewrite Bx. reflexivity.
      + rewrite Bs, Fs. reflexivity.
      + rewrite Bm, Fm. reflexivity.
      + rewrite Bn, Fn. reflexivity.
    - constructor; [cbn [fst snd]; apply attr_some; try discriminate; unfold dc; now rewrite attr_upd_same |].
      constructor; [cbn [fst snd]; apply Dk; [discriminate | discriminate | apply attr_some; try discriminate; exact S4] |].
      constructor; [cbn [fst snd]; apply attr_some; try discriminate; unfold dc; rewrite attr_upd_other, attr_upd_same by discriminate |].
      { f_equal. clear. induction (ax_vals a) as [| x l IH]; cbn [map combine]; [reflexivity |]. rewrite IH. reflexivity. }
      repeat constructor; cbn [fst snd]; (apply Dk; [discriminate | discriminate |]); apply attr_some; try discriminate.
      + rewrite S6, map_map. reflexivity.
      + rewrite Bv, Fv. cbn [map app]. unfold nums_pv at 2 3 4. rewrite !map_map. reflexivity.
      + rewrite Av, Ea. reflexivity. }
  assert (Or : ok2310 g r).
  { unfold ok2310, r. cbn [r7_common r7_var r7_aux r7_dx r7_xname r7_x r7_nx r7_a r7_v fst snd nth tl].
    assert (Dn := described_names s Ns). destruct Dn as (D1 & D2 & D3).
    split; [| split; [| split; [| split; [cbn [length]; lia | split; [exact Ns | split; [exact Nt | split; [| split; [| split; [| split; [| split; [| split; [| split; [discriminate |]]]]]]]]]]]]].
    - unfold common_ok. cbn [c_oname c_org c_sname c_mname c_scom c_ncom]. do 4 (split; [assumption |]).
      split; apply Forall_forall; intros w J; rewrite Forall_forall in Z3, C3;
        (split; [first [exact (Z3 w J) | exact (C3 w J)] | first [exact (Cr kSCOM scom w (or_introl eq_refl) Z1 J) | exact (Cr kNCOM ncom w (or_intror eq_refl) C1 J)]]).
    - unfold rec_var. cbn [Records.v_name]. rewrite Hu. apply (Nv v u); [apply in_or_app; auto | exact Hu].
    - unfold auxs_ok. do 3 (constructor; [assumption |]). apply Forall_forall. intros q J. apply in_map_iff in J. destruct J as (w & <- & J).
      rewrite Forall_forall in Fb. destruct (Fb w J) as (z & Hz). unfold rec_var. cbn [Records.v_name]. rewrite Hz. apply (Nv w z); [apply in_or_app; auto | exact Hz].
    - cbn [length]. now rewrite !map_length.
    - now rewrite !map_length.
    - do 3 (constructor; [now rewrite !map_length |]). rewrite map_length. exact Fl.
    - apply Forall_forall. intros n J. apply in_map_iff in J. destruct J as (_ & <- & _). unfold ax_len. destruct (ax_vals b); [discriminate X0 | cbn; lia].
    - clear - Cnt. induction (ax_vals a) as [| x l IH]; cbn [map]; constructor; [exact Cnt | exact IH].
    - unfold ax_len in L1 at 1. clear - L1 L2. revert L1 L2. generalize (rec_array E 1 v). induction (ax_vals a) as [| x l IH]; intros [| y w] L1 L2; try discriminate L1; cbn [map]; constructor.
      + inversion L2 as [| ? ? Q _]; subst. destruct Q as (Q & _). exact Q.
      + apply IH; [now injection L1 | now inversion L2].
    - clear - Tr. induction (ax_vals a) as [| x l IH]; cbn [map]; constructor; [exists tr; split; [reflexivity | exact Tr] | exact IH]. }
  destruct Po as (P1 & P2 & P3 & P4).
  assert (Nh' : attr dc kNLHEAD = PInt (-999)) by (unfold dc; rewrite !attr_upd_other by discriminate; exact Nh).
  destruct (rt2310 o P1 P2 P3 g P4 r dc _ Or Hr Nh' h) as (file & hdr & d2 & Wf & data & d' & _ & Rf & Dd).
  destruct (writes_alike o h d dc Al) as (rr & file' & hdr' & e1 & e2 & W1 & W2). rewrite Wf in W2. injection W2 as <- <- <- <-.
  exists file, hdr, e1, d'. split; [exact W1 |]. split; [exact Rf |].
  assert (G : forall k w, In (k, w) (items2310 (norm2310 g r)) -> attr d' k = w).
  { intros k w J. assert (Hd' : has d' (read_items (count_chr c_nl hdr) ++ items2310 (norm2310 g r))).
    { apply is_dict_has; [| exact Dd]. unfold items2310, aux_items. cbn [norm2310 r7_aux r map]. cbn; nodup. }
    unfold attr. rewrite (Hd' k w); [reflexivity |]. apply in_or_app. right. exact J. }
  assert (Ic : forall k w, In (k, w) (common_items (num:=num) 2310 2 (norm_common (r7_common r))) -> attr d' k = w).
  { intros k w J. apply G. unfold items2310. apply in_or_app. left. exact J. }
  assert (Iw : forall k w, In (k, w) (var_items [norm_var (rec_var E v)]) -> attr d' k = w).
  { intros k w J. apply G. unfold items2310. apply in_or_app. right. apply in_or_app. left. exact J. }
  assert (Ia : forall k w, In (k, w) (aux_items (map norm_var (r7_aux r))) -> attr d' k = w).
  { intros k w J. apply G. unfold items2310. apply in_or_app. right. apply in_or_app. right. apply in_or_app. left. exact J. }
  assert (Ir := fun k w J => G k w (in_or_app _ _ _ (or_intror (in_or_app _ _ _ (or_intror (in_or_app _ _ _ (or_intror J))))))).
  cbn [In norm2310 r7_dx r7_xname r7_x r7_nx r7_a r7_v r fst snd] in Ir. cbn [r7_aux r map aux_items In norm_var Records.v_name Records.v_miss v_scal head_num val der] in Ia.
  assert (Mv : forall w, miss_num (e_fill E) w <> None -> pv (Records.v_miss (norm_var (rec_var E w))) = miss_read (e_fill E) w).
  { intros w Q. unfold miss_read, miss_num in *. unfold rec_var, rec_miss. cbn [norm_var Records.v_miss head_num pv val].
    destruct (Xarray.v_miss w) as [[| z | x | y | y] |]; try (now destruct Q); reflexivity. }
  assert (Ad : forall k w, d k = Some w -> attr d k = w) by (intros k w Q; unfold attr; rewrite Q; reflexivity).
  assert (Fv1 : field (e_fill E) [ax_len a; ax_len b] v) by (rewrite Ov in Fc; inversion Fc; assumption).
  split; [| split; [| split; [| split; [| split; [| split; [| split; [| split]]]]]]].
  - intros k J. cbn [In] in J. destruct J as [<- | [<- | [<- | [<- | [<- | [<- | [<- | [<- | []]]]]]]]].
    + rewrite (Ad _ _ Hf). apply Ic. left. reflexivity.
    + rewrite Ni. apply Ic. right. left. reflexivity.
    + rewrite S6. apply Ir. do 3 right. left. rewrite !map_map. reflexivity.
    + rewrite S4. apply Ir. right. left. reflexivity.
    + rewrite Anv. apply Iw. left. reflexivity.
    + rewrite An, En. apply Iw. do 3 right. left. reflexivity.
    + rewrite Bx. apply Ia. left. unfold len_pv. cbn [length]. rewrite !map_length. reflexivity.
    + rewrite Bn, Fn. apply Ia. do 3 right. left. unfold strs_pv. cbn [map app]. rewrite !map_map. reflexivity.
  - apply Ir. left. unfold nums_pv. cbn [map head_num val pv]. rewrite map_map. reflexivity.
  - apply Ir. do 2 right. left. cbn [map nth]. do 2 f_equal. clear. induction (ax_vals a) as [| x l IH]; cbn [map combine]; [reflexivity |]. rewrite IH. reflexivity.
  - apply Iw. right. left. reflexivity.
  - apply Iw. do 2 right. left. unfold nums_pv. cbn [map]. rewrite Mv; [reflexivity |]. apply Fv1.
  - apply Ir. do 5 right. left. do 3 f_equal. exact (field_returned E g _ _ v Fv1).
  - apply Ia. right. left. unfold nums_pv. cbn [map pv repeat app]. rewrite !map_map. reflexivity.
  - apply Ia. do 2 right. left. unfold nums_pv. cbn [map pv repeat app]. do 5 f_equal. rewrite !map_map. apply map_ext_in.
    intros w J. rewrite Forall_forall in Fa. apply Mv, (Fa w J).
  - apply Ir. do 4 right. left. cbn [map]. do 2 f_equal. unfold nums_pv at 1 2 3. rewrite !map_map. do 3 f_equal.
    apply map_ext_in. intros w J. rewrite Forall_forall in Fa. exact (rec_returned E g _ w (Fa w J)).
Qed.
Print Assumptions C108_2310_partial.

(** ** Examples *)
Definition brows (l : list (list b64)) : pyv b64 := PList (map bdata l).
Definition zb : axis b64 := axb (lit "z") [bf "0.5"; bf "1"; bf "1.5"].
(** Three times at three heights half a unit apart. *)
Definition pb : xvar b64 := bvar (lit "q") [tb; zb] (brows [[bf "1"; bf "2"; bf "3"]; [bf "4"; nan; bf "6"]; [bf "7"; bf "8"; bf "9"]]) None.
Definition read_as {num} {Num : NumOps num} {Ar : ArithOps num} (E : env num) (o : opts num) (req : Z) (k : cls) (ks : list key) (vs : list (xvar num)) : Res (list (pyv num)) :=
  match convert E (Some req) (gl (lit "Test")) vs with
  | Ok (Some [c]) => match c_na c with
     | Some d => match write_body o k false (mkW [] [] d) with
         | (Ok tt, w) => (do p <- read_file (w_file w) 0; Ok (map (attr (snd p)) ks))%res
         | (Err e, _) => Err e end
     | None => Err EUnmodelled end
  | Ok _ => Err EUnmodelled
  | Err e => Err e
  end.
Definition back : pyv b64 := PList [brows [[bf "1"; bf "2"; bf "3"]; [bf "4"; bf "-9999999999"; bf "6"]; [bf "7"; bf "8"; bf "9"]]].
Definition three (x : b64) : pyv b64 := bdata [x; x; x].
Example C108_example :
  read_as env_b opts_b64 2110 C2110 [kNX; kX; kV; kA] [pb] =
    Ok [PList [PInt 3; PInt 3; PInt 3]; PList (map (fun x => PList [PNum x; bdata (ax_vals zb)]) (ax_vals tb)); back; PList [three (bf "3")]] /\
  read_as env_b opts_b64 2310 C2310 [kNX; kX; kV; kA; kDX] [pb] =
    Ok [PList [PInt 3; PInt 3; PInt 3]; PList (map (fun x => PList [PNum x; bdata [bf "0.5"]]) (ax_vals tb)); back;
        PList [three (bf "3"); three (bf "0.5"); three (bf "0.5")]; PList [PNum (bf "0.5"); PInt 0; PInt 0; PInt 0]] /\
  counted (bf "0.5") (bf "0.5") 3 = ax_vals zb.
Proof. split; [| split]; vm_compute; reflexivity. Qed.

Local Ltac names := intros; repeat match goal with J : In _ _ |- _ => cbn [In map app] in J | J : _ \/ _ |- _ => destruct J as [<- | J] | J : False |- _ => destruct J end;
  match goal with J : getBestName _ = Ok _ |- _ => vm_compute in J; injection J as <- end; apply name_ok_of; reflexivity.
Local Ltac cells := repeat first [split; [reflexivity |] | eexists | constructor]; try reflexivity.
Definition env_u : env wnan :=
  mkEnv (fun _ => true) (lit "2024-01-01 00:00:00") [2024; 1; 1]%Z (lit "0.3") (Num (Whole (-99))) (Num (Whole (-9))) (Num (Whole 1)) (fun _ _ => None).
Definition hw : axis wnan := zw (lit "z") [1; 2]%Z.
Definition wvar (n : str) (l : list (list Z)) : xvar wnan := mkVar (mkNamed n [] []) [tw; hw] (rows l) None None.
Definition wp : xvar wnan := wvar (lit "p") [[1; 2]; [3; 4]; [5; 6]]%Z.
Definition wq : xvar wnan := wvar (lit "q") [[11; 12]; [13; 14]; [15; 16]]%Z.
Lemma one_profile ffi vs : vs <> [] -> Forall (fun v => v_axes v = [tw; hw] /\ field (e_fill env_u) [3; 2]%nat v) vs ->
  (forall w s, In w vs -> getBestName (v_info w) = Ok s -> Records.name_ok s) ->
  match convert env_u (Some ffi) (gl (lit "Test")) vs with
    | Ok (Some [c]) => match c_na c with Some d =>
        c_main c = vs /\ c_aux c = [] /\ map d [kFFI; kONAME; kORG; kSNAME; kMNAME; kDATE; kRDATE; kSCOM] =
          [Some (PInt ffi); Some (PStr (lit "BADC")); Some (PStr (lit "BADC")); Some (PStr (lit "Sonde")); Some (PStr (lit "Test"));
           Some (PList [PInt 999; PInt 999; PInt 999]); Some (PList [PInt 2024; PInt 1; PInt 1]); Some (PList [])] /\
        match d kNCOM with Some (PList l) => forallb (fun s => match s with PStr s => negb (mem_chr c_cr s) | _ => false end) l = true | _ => False end
      | None => False end
    | _ => False end ->
  exists c d, convert env_u (Some ffi) (gl (lit "Test")) vs = Ok (Some [c]) /\ c_na c = Some d /\ c_main c = vs /\ profile_table (e_fill env_u) ffi c d tw hw.
Proof.
  intros Ne Fi Nv T.
  destruct (convert env_u (Some ffi) (gl (lit "Test")) vs) as [[[| c [|]] |] |]; try contradiction.
  destruct (c_na c) as [d |] eqn:Nd; [| contradiction].
  destruct T as (Em & Ex & Ed & En). cbn [map] in Ed. injection Ed as D1 D2 D3 D4 D5 D6 D7 D8.
  exists c, d. split; [reflexivity |]. split; [exact Nd |]. split; [exact Em |].
  split; [exact Nd |]. split; [exact D1 |].
  split; [destruct vs as [| v rest]; [congruence |]; exists v, rest; split; [exact Em | inversion Fi as [| ? ? Q _]; apply Q] |]. do 2 (split; [reflexivity |]). split; [split; [| split; [| split]] |].
  - exists (lit "BADC"), (lit "BADC"), (lit "Sonde"), (lit "Test"). repeat (split; [assumption |]). repeat split; apply title_ok_of; reflexivity.
  - exists (999, 999, 999)%Z. exact D6.
  - exists (2024, 1, 1)%Z. exact D7.
  - intros k l s [-> | ->] Q J.
    + rewrite D8 in Q. injection Q as Q. destruct l; [destruct J | discriminate Q].
    + rewrite Q in En. rewrite forallb_forall in En. specialize (En (PStr s) (in_map PStr _ _ J)). apply negb_true_iff in En. now apply mem_chr_false in En.
  - rewrite Em, Ex, app_nil_r. split; [eapply Forall_impl; [| exact Fi]; intros v (_ & Q); exact Q |]. split; [constructor |]. split; [names | exact Nv].
Qed.
(** The conditions of the two theorems hold of a variable [wp], and those on the
    dictionary also of the two variables of the next theorem. *)
Example C108_conditions : forall ffi vs, In (ffi, vs) [(2110%Z, [wp]); (2310%Z, [wp]); (2310%Z, [wp; wq])] ->
  exists c d, convert env_u (Some ffi) (gl (lit "Test")) vs = Ok (Some [c]) /\ c_na c = Some d /\ c_main c = vs /\ profile_table (e_fill env_u) ffi c d tw hw /\
    ax_vals tw <> [] /\ num_trunc (num_of_Z (num:=wnan) (Z.of_nat (ax_len hw))) = Some (Z.of_nat (ax_len hw)) /\
    nth_error (ax_vals hw) 0 = Some (Num (Whole 1)) /\ nth_error (ax_vals hw) 1 = Some (Num (Whole 2)) /\
    num_trunc (num_minus (Num (Whole 2)) (Num (Whole 1))) = Some 1%Z.
Proof.
  assert (K : forall ffi vs, In (ffi, vs) [(2110%Z, [wp]); (2310%Z, [wp]); (2310%Z, [wp; wq])] ->
    exists c d, convert env_u (Some ffi) (gl (lit "Test")) vs = Ok (Some [c]) /\ c_na c = Some d /\ c_main c = vs /\ profile_table (e_fill env_u) ffi c d tw hw).
  { intros ffi vs J. cbn [In] in J. destruct J as [J | [J | [J | []]]]; injection J as <- <-; apply one_profile.
    all: match goal with |- _ <> [] => discriminate
         | |- Forall _ _ => repeat (constructor; [split; [reflexivity |]; split; [reflexivity |]; split; [discriminate |]; cells |]); constructor
         | |- forall w s, _ => intros w s J Q; cbn [In] in J; repeat destruct J as [<- | J]; try contradiction J; vm_compute in Q; injection Q as <-; apply name_ok_of; reflexivity
         | _ => vm_compute; repeat split end. }
  intros ffi vs J. destruct (K ffi vs J) as (c & d & A & B & C & D). exists c, d. repeat (split; [first [assumption | discriminate | reflexivity] |]). reflexivity.
Qed.
(** Two variables in format 2310: the values of [wp] and [wq] are mixed. *)
Theorem C108_refuted : exists (vars : list (xvar wnan)) cs c d w d',
  convert env_u (Some 2310%Z) (gl (lit "Test")) vars = Ok (Some cs) /\ In c cs /\ profile_table (e_fill env_u) 2310 c d tw hw /\ plain_opts opts_wnan (fun x => x) /\
  write_body opts_wnan C2310 false (mkW [] [] d) = (Ok tt, w) /\ read_file (num:=wnan) (w_file w) 0 = Ok (C2310, d') /\
  map (returned_array (fun x => x) (e_fill env_u)) (c_main c) = [rows [[1; 2]; [3; 4]; [5; 6]]; rows [[11; 12]; [13; 14]; [15; 16]]]%Z /\
  attr d' kV = PList [rows [[1; 11]; [3; 13]; [5; 15]]; rows [[2; 12]; [4; 14]; [6; 16]]]%Z.
Proof.
  destruct (C108_conditions 2310%Z [wp; wq]) as (c & d & O & Nd & Em & G & _); [cbn; auto |].
  assert (T : match convert env_u (Some 2310%Z) (gl (lit "Test")) [wp; wq] with Ok (Some [c]) => match c_na c with Some d =>
      let r := write_body opts_wnan C2310 false (mkW [] [] d) in fst r = Ok tt /\
      match read_file (num:=wnan) (w_file (snd r)) 0 with Ok (C2310, d') => attr d' kV = PList [rows [[1; 11]; [3; 13]; [5; 15]]; rows [[2; 12]; [4; 14]; [6; 16]]]%Z | _ => False end
    | None => False end | _ => False end) by (vm_compute; split; reflexivity).
  rewrite O, Nd in T. cbv zeta in T. destruct T as (Q1 & Q2).
  destruct (read_file (w_file (snd (write_body opts_wnan C2310 false {| w_file := []; w_head := []; w_na := d |}))) 0) as [[[] d'] |] eqn:Rf; try contradiction.
  exists [wp; wq], [c], c, d, (snd (write_body opts_wnan C2310 false (mkW [] [] d))), d'.
  split; [exact O |]. split; [left; reflexivity |]. split; [exact G |]. split; [exact plain_wnan |]. split; [apply run_pair, Q1 |]. split; [exact Rf |].
  split; [rewrite Em; reflexivity | exact Q2].
Qed.
Print Assumptions C108_refuted.

(** ** C109 *)
(** The auxiliary variables that describe the second axis have the name of the
    first one. *)
Theorem C109_partial : forall num (Num : NumOps num) (Ar : ArithOps num) (E : env num) req globals (vars : list (xvar num)) cs c d ffi a b v rest,
  ~ In (lit "file_format_index") (map fst globals) -> convert E req globals vars = Ok (Some cs) -> In c cs -> c_na c = Some d ->
  d kFFI = Some (PInt ffi) -> In ffi [2110; 2310]%Z -> c_main c = v :: rest -> v_axes v = [a; b] ->
  exists s more, getBestName (ax_info a) = Ok s /\
    attr d kANAME = PList (PStr (lit "Number of '" ++ s ++ lit "' values recorded in subsequent data records") :: more).
Proof.
  intros num Num Ar E req globals vars cs c d ffi a b v rest Ng R I Nd Hf If Ev Va.
  destruct (converted_profile E _ _ _ _ _ _ _ _ _ _ _ Ng R I Nd Hf Ev Va) as (P1 & P2). cbn in If. destruct If as [Q | [Q | []]].
  - destruct (P1 (eq_sym Q)) as (s & t & r0 & r1 & (S1 & _) & _ & (fs & _ & Bn & _)). exists s. eexists. split; [exact S1 | exact Bn].
  - destruct (P2 (eq_sym Q)) as (s & t & x0 & x1 & y0 & (S1 & _) & _ & _ & _ & _ & (fs & _ & Bn & _)). exists s. eexists. split; [exact S1 | exact Bn].
Qed.
Print Assumptions C109_partial.
(** There are two heights at each time, and the file says it is the number of
    times. *)
Theorem C109_refuted : exists (vars : list (xvar wnan)) cs c d a b,
  convert env_u (Some 2110%Z) (gl (lit "Test")) vars = Ok (Some cs) /\ In c cs /\ profile_table (e_fill env_u) 2110 c d a b /\
  getBestName (ax_info a) = Ok (lit "t") /\ getBestName (ax_info b) = Ok (lit "z") /\ length (ax_vals b) = 2%nat /\ length (ax_vals a) = 3%nat /\
  attr d kA = PList [PList [PInt 2; PInt 2; PInt 2]] /\
  attr d kANAME = PList [PStr (lit "Number of 't' values recorded in subsequent data records")].
Proof.
  destruct (C108_conditions 2110%Z [wp]) as (c & d & O & Nd & Em & G & _); [cbn; auto |].
  assert (T : match convert env_u (Some 2110%Z) (gl (lit "Test")) [wp] with Ok (Some [c]) => match c_na c with Some d =>
      attr d kA = PList [PList [PInt 2; PInt 2; PInt 2]] /\ attr d kANAME = PList [PStr (lit "Number of 't' values recorded in subsequent data records")]
    | None => False end | _ => False end) by (vm_compute; split; reflexivity).
  rewrite O, Nd in T. exists [wp], [c], c, d, tw, hw. split; [exact O |]. split; [left; reflexivity |]. split; [exact G |].
  do 4 (split; [reflexivity |]). exact T.
Qed.
Print Assumptions C109_refuted.
