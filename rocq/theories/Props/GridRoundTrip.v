(** C106: variables of two to four dimensions that are converted, written to a
    file and read. *)
From Coq Require Import List NArith ZArith Bool Lia.
From Verif Require Import Py.Str Py.Res Py.Num Py.Arith Model.Dict Model.CommonUtils Model.NAWrite Model.NARead Model.Normalize Spec.TextSpec Spec.Records
  Spec.RoundTripSpec Spec.RewriteSpec Model.Xarray Model.Collector Spec.ValuesSpec Spec.CollectorSpec Spec.NcRoundTripSpec Spec.GridSpec
  Spec.WholeNum Spec.Binary64 Proofs.StrLemmas Proofs.ReadFrame Proofs.ReadData Proofs.SampleOk Proofs.NumLemmas Proofs.CollectorLemmas Proofs.CollectorFrame
  Proofs.RT2 Proofs.RT6 Props.CollectorProps Props.CommentProps Props.RoundTrip Props.AxisProps Props.ValuesProps Props.NcRoundTrip.
Import ListNotations.

Local Ltac nodup := repeat (constructor; [cbn; intuition discriminate|]); constructor.
Section Grid.
Context {num : Type} {Num : NumOps num} {Ar : ArithOps num}.
Variable E : env num.
Local Notation xvar := (xvar num).
Local Notation pyv := (pyv num).
Local Notation na := (na num).
Local Notation number := (number num).

Lemma no_described req globals (vars : list xvar) cs c d ffi : ~ In (lit "file_format_index") (map fst globals) ->
  convert E req globals vars = Ok (Some cs) -> In c cs -> c_na c = Some d -> d kFFI = Some (PInt ffi) -> ffi <> 2110%Z -> ffi <> 2310%Z -> described req = 0%nat.
Proof.
  intros Ng R I Nd Hf N1 N2. destruct (convert_each E _ _ _ _ _ R I) as (vs & C & _ & _).
  destruct (collect_steps E _ _ _ _ _ C Nd) as (a & d1 & d2 & g & d3 & v0 & ax0 & Ha & H1 & H2 & Hg & H3 & _ & _ & Ed & Em & _).
  assert (Gf : gs_na g kFFI = d2 kFFI).
  { unfold defineNAGlobals in Hg.
    refine (forR_inv (fun g => gs_na g kFFI = d2 kFFI) _ _ _ _ _ Hg eq_refl).
    intros x s s' Ix Q P. rewrite <- P. apply (item_ffi E x s s'); [| exact Q]. intros Q'. apply Ng. rewrite <- Q'. apply in_map, Ix. }
  assert (Fi : a_ffi a = ffi).
  { rewrite Ed, (same_header E ax0 d3 kFFI) in Hf by (cbn; intuition discriminate). rewrite (comments_frame _ _ _ _ H3 kFFI) in Hf by (cbn; intuition discriminate).
    rewrite Gf, (same_aux E _ _ _ H2 kFFI) in Hf by (cbn; intuition discriminate). rewrite (same_vars E _ _ _ _ _ H1 kFFI) in Hf by (cbn; intuition discriminate).
    cbn in Hf. congruence. }
  rewrite (described_ffi E _ _ _ Ha), Fi. destruct (Z.eqb_spec ffi 2110); [contradiction|]. destruct (Z.eqb_spec ffi 2310); [contradiction|reflexivity].
Qed.

(** the array in the record *)
Fixpoint to_nested (m : number) (k : nat) : pyv -> nested num k :=
  match k with
  | O => fun p => match p with PNum x => if num_isnan x then m else NF x | _ => NI 0 end
  | S k' => fun p => match p with PList l => map (to_nested m k') l | _ => [] end
  end.
Lemma marked_nested (m : number) dims : forall p w, num_array dims p -> marked (pv m) p w ->
  w = nested_pv (to_nested m (length dims) p) /\ has_shape dims (to_nested m (length dims) p).
Proof.
  induction dims as [| n rest IH]; intros p w; cbn [num_array length].
  - intros (x & ->) M. cbn [nested_pv to_nested has_shape]. split; [| exact I]. inversion M as [y Q | y Q | | v B]; subst; [rewrite Q; reflexivity | rewrite Q; reflexivity | destruct B].
  - intros (l & -> & Ll & F) M. inversion M as [| | l0 l' F' | v B]; [| destruct B]. subst.
    cbn [nested_pv to_nested has_shape]. rewrite map_map, map_length.
    assert (K : l' = map (fun x => nested_pv (to_nested m (length rest) x)) l /\ Forall (has_shape rest) (map (to_nested m (length rest)) l)).
    { clear M. induction F' as [| x y l l' Mx F' IHl]; [split; [reflexivity | constructor] |]. inversion F as [| ? ? Fx Fl]; subst.
      destruct (IHl Fl) as (K1 & K2). destruct (IH x y Fx Mx) as (J1 & J2). cbn [map]. split; [congruence | constructor; assumption]. }
    destruct K as (K1 & K2). split; [now rewrite K1 | split; [reflexivity | exact K2]].
Qed.
Lemma nested_returned g (m : number) dims : forall p, num_array dims p ->
  nested_pv (nested_map (data_num g) (to_nested m (length dims) p)) = returned_cells g (val m) p.
Proof.
  induction dims as [| n rest IH]; intros p; cbn [num_array length].
  - intros (x & ->). cbn [nested_pv nested_map to_nested returned_cells]. destruct (num_isnan x); reflexivity.
  - intros (l & -> & Ll & F). cbn [nested_pv nested_map to_nested returned_cells]. rewrite !map_map. f_equal. apply map_ext_in. intros x J.
    rewrite Forall_forall in F. exact (IH x (F x J)).
Qed.
Lemma rec_miss_val v m : miss_num (e_fill E) v = Some m -> val (rec_miss E v) = m.
Proof. unfold miss_num, rec_miss. destruct (Xarray.v_miss v) as [[| z | x | t | t] |]; intros Q; try discriminate Q; injection Q as <-; reflexivity. Qed.
Definition rec_array (k : nat) (v : xvar) : list (nested num k) := to_nested (rec_miss E v) (S k) (v_data v).
Lemma field_entry n dims v e : field (e_fill E) (n :: dims) v -> entry_for (e_fill E) v e ->
  exists s, getBestName (v_info v) = Ok s /\ e = (PStr s, pv (rec_miss E v), PInt 1, PList (map nested_pv (rec_array (length dims) v))) /\
    length (rec_array (length dims) v) = n /\ Forall (has_shape dims) (rec_array (length dims) v).
Proof.
  intros (Tv & Mv & Av) He. destruct e as [[[nm m] sc] w]. destruct He as ((s & Hs & ->) & Hm & -> & Hw). rewrite Tv in Hw.
  exists s. split; [exact Hs |].
  assert (Em : m = pv (rec_miss E v)).
  { unfold missing_of in Hm. unfold miss_num in Mv. unfold rec_miss. destruct (Xarray.v_miss v) as [[| z | x | t | t] |]; try (now destruct Mv); exact Hm. }
  subst m. destruct (marked_nested (rec_miss E v) (n :: dims) _ _ Av Hw) as (-> & Sh). split; [reflexivity |]. exact Sh.
Qed.
Lemma field_entries n dims vs es : Forall (field (e_fill E) (n :: dims)) vs -> Forall2 (entry_for (e_fill E)) vs es ->
  names es = map PStr (map Records.v_name (map (rec_var E) vs)) /\ misses es = map pv (map Records.v_miss (map (rec_var E) vs)) /\
  scales es = map pv (map v_scal (map (rec_var E) vs)) /\ arrays es = map (fun v => PList (map nested_pv v)) (map (rec_array (length dims)) vs) /\
  Forall (fun v => length v = n /\ Forall (has_shape dims) v) (map (rec_array (length dims)) vs) /\ Forall (fun v => exists s, getBestName (v_info v) = Ok s) vs.
Proof.
  intros Fc F. induction F as [| v e vs es He F IH]; [repeat split; constructor |]. inversion Fc as [| ? ? Cv Fc']; subst.
  destruct (IH Fc') as (A & B & C & D & L & G). destruct (field_entry _ _ _ _ Cv He) as (s & Hs & -> & Ls).
  cbn [names misses scales arrays map fst snd rec_var Records.v_name Records.v_miss v_scal]. rewrite Hs.
  unfold names, misses, scales, arrays in A, B, C, D. rewrite A, B, C, D. repeat split; try reflexivity; constructor; eauto.
Qed.
Lemma field_returned g n dims v : field (e_fill E) (n :: dims) v ->
  PList (map nested_pv (map (nested_map (data_num g)) (rec_array (length dims) v))) = returned_array g (e_fill E) v.
Proof.
  intros (Tv & Mv & Av). unfold returned_array. destruct (miss_num (e_fill E) v) as [m |] eqn:Em; [| congruence].
  rewrite <- (rec_miss_val _ _ Em). exact (nested_returned g (rec_miss E v) (n :: dims) _ Av).
Qed.
End Grid.

(** Every converted dictionary of two to four dimensions that can be written
    comes back from its file: names, lengths and abbreviation of the axes, the
    listed axis values, auxiliary variables and all values, numbers as they are
    printed.

    Missing for the whole claim: with two or three bounded axes the numbers of
    listed values must be the same backwards (see below); as in C78, titles of
    several lines and missing titles. *)
Theorem C106_partial : forall num (Num : NumOps num) (Ar : ArithOps num) (E : env num) req globals (vars : list (xvar num)) cs c d a axes (o : opts num) g,
  plain_opts o g -> ~ In (lit "file_format_index") (map fst globals) -> ~ In (lit "no_of_nasa_ames_header_lines") (map fst globals) ->
  convert E req globals vars = Ok (Some cs) -> In c cs -> grid_table (e_fill E) c d a axes ->
  length axes = 1%nat \/ (exists l, attr d kNXDEF = PList l /\ rev l = l) ->
  forall h, exists file hdr d2 d', write_body o (grid_class axes) false (mkW [] h d) = (Ok tt, mkW file hdr d2) /\ read_file file 0 = Ok (grid_class axes, d') /\
    (forall k, In k [kFFI; kNIV; kNX; kNXDEF; kXNAME; kNV; kVNAME; kNAUXV] -> attr d' k = attr d k) /\
    attr d' kX = map_nums g (attr d kX) /\
    attr d' kVSCAL = PList (map (fun _ => PNum (num_of_Z 1)) (c_main c)) /\
    attr d' kVMISS = PList (map (fun w => match miss_num (e_fill E) w with Some m => PNum m | None => PNone end) (c_main c)) /\
    attr d' kV = PList (map (returned_array g (e_fill E)) (c_main c)) /\
    attr d' kA = PList (map (returned g (e_fill E)) (c_aux c)) /\
    (c_aux c <> [] -> attr d' kANAME = attr d kANAME /\ attr d' kASCAL = PList (map (fun _ => PNum (num_of_Z 1)) (c_aux c)) /\
       attr d' kAMISS = PList (map (fun w => match miss_num (e_fill E) w with Some m => PNum m | None => PNone end) (c_aux c))) /\
    ((forall b x, In b axes -> In x (ax_vals b) -> g x = x) -> exists d3, normalizeIndVars_2010 d' = Ok d3 /\ index (attr d3 kX) 0 = index (attr d' kX) 0 /\
       forall i b, nth_error axes i = Some b -> adds_up (ax_vals b) -> index (attr d3 kX) (S i) = Ok (PList (map PNum (ax_vals b)))).
Proof.
  intros num Num Ar E req globals vars cs c d a axes o g Po Nf Nl R I (Nd & Lx & Hf & (v & rest & Ev & Va) & La & Pos & Wh & Fc & Fa & Na & Nv) Pal h.
  destruct (C75_values _ _ _ E _ _ _ _ _ R I) as (dd & es & Nd' & F & Anv & An & Am & As & Av). rewrite Nd in Nd'. injection Nd' as <-.
  destruct (C75_auxiliary _ _ _ E _ _ _ _ _ R I) as (dd & fs & ln & lm & ls & lv & Nd' & F' & Bn & Bm & Bs & Bv & L1 & L2 & L3 & L4 & Bx). rewrite Nd in Nd'. injection Nd' as <-.
  assert (If : In (Z.of_nat (1 + length axes) * 1000 + 10)%Z [2010; 3010; 4010]%Z).
  { destruct axes as [| ? [| ? [| ? [| ? ?]]]]; cbn in Lx; try lia; cbn; auto. }
  assert (Z0 : described req = 0%nat) by (eapply (no_described E); eauto; intros Q; rewrite Q in If; cbn in If; intuition discriminate).
  rewrite Z0 in L1, L2, L3, L4, Bx. destruct ln; [| discriminate L1]. destruct lm; [| discriminate L2]. destruct ls; [| discriminate L3]. destruct lv; [| discriminate L4].
  cbn [app Nat.add] in Bn, Bm, Bs, Bv, Bx.
  destruct (C77_axes _ _ _ E _ _ _ _ _ _ _ _ _ Nf R I Ev Nd Hf) as (a' & more & xn' & Va' & _ & _ & _ & _ & _ & Xd). rewrite Va in Va'. injection Va' as <- <-.
  destruct (Xd ltac:(intros Q; rewrite Q in If; cbn in If; intuition discriminate) La) as (dx & dr & Dx & Ld & St). clear Xd.
  destruct (converted_axes _ _ _ E _ _ _ _ _ _ _ _ _ Nf R I Ev Nd Hf If) as (Ni & bx & axes' & ents & dx0 & nm0 & Va' & Fe & Cnx & Cnd & Cdx & Cx & Cn & Cb).
  rewrite Va in Va'. injection Va' as <- <-. rewrite Dx in Cdx. injection Cdx as <- ->.
  assert (Pd : exists r, dx = pv r). { destruct St as [(-> & _) | (p & q & _ & _ & -> & _)]; [exists (NI 0) | exists (NF (num_minus q p))]; reflexivity. }
  destruct Pd as (rdx & ->).
  assert (Iv : In v (c_main c)) by (rewrite Ev; left; reflexivity).
  destruct (niv_of E _ _ _ _ _ _ _ R I Nd Iv) as (_ & Iv1 & Nv1 & Nh). specialize (Nh Nl). rewrite Va in Ni. cbn [length] in Ni.
  destruct (C52_counts _ _ _ E _ _ _ _ _ R I) as (dd & scom & ncom & Nd' & S1 & S2 & S3 & C1 & C2 & C3). rewrite Nd in Nd'. injection Nd' as <-.
  destruct Wh as ((on & og & sn & mn & O1 & O2 & O3 & O4 & T1 & T2 & T3 & T4) & (dt & Dt) & (rd & Rd) & Cr).
  destruct (field_entries E _ _ _ _ Fc F) as (En & Em & Es & Ea & Ll & Lb).
  destruct (rec_entries E _ _ _ Fa F') as (Fn & Fm & Fs & Fv & Fl & Fb).
  set (nx := map ax_len axes) in *.
  set (num_of := fun p : pyv num => match p with PInt z => NI z | PNum x => NF x | _ => NI 0 end).
  set (rax := fun e : ent => mkAxis (num:=num) (num_of (n_dx e)) (map NF (xs_of e)) (n_nm e)).
  assert (Lnx : length nx = length axes) by apply map_length.
  assert (Lents : length ents = length axes) by (clear - Fe; induction Fe; cbn; congruence).
  set (r := mk2010 (num:=num) (mkCommon on og sn mn 1 1 dt rd scom ncom) (map (rec_var E) (c_main c)) (map (rec_var E) (c_aux c)) rdx nm0 nx (map rax ents)
              (map NF (ax_nums a)) (map (rec_vals E) (c_aux c)) (map (rec_array E (length nx)) (c_main c))).
  assert (Le : length (c_main c) = length es) by (clear - F; induction F; cbn; congruence).
  assert (Edx : map (@pv num) (map x_dx (map rax ents)) = map n_dx ents).
  { rewrite !map_map. clear - Fe. induction Fe as [| b e la le (_ & _ & _ & Q) Fe IH]; [reflexivity |]. cbn [map]. rewrite IH. f_equal.
    unfold rax. cbn [x_dx]. unfold num_of. destruct Q as [-> | (i & ->)]; reflexivity. }
  assert (End : map (fun e => PInt (Z.of_nat (n_nd e))) ents = map (fun q => len_pv (num:=num) (x_def q)) (map rax ents)).
  { rewrite map_map. clear - Fe Pos. induction Fe as [| b e la le Q Fe IH]; [reflexivity |]. inversion Pos as [| ? ? (Tb & _) Pos']; subst. cbn [map]. rewrite (IH Pos'). f_equal. unfold len_pv, rax. cbn [x_def].
    rewrite map_length. destruct (entry_num _ _ Q Tb) as (_ & [(-> & ->) | (-> & Q' & ->)]); [reflexivity |]. rename Q' into G. rewrite firstn_length. unfold ax_len in G. do 2 f_equal. lia. }
  assert (Ex : map (fun e => PList (n_x e)) ents = map nums_pv (map (@x_def num) (map rax ents))).
  { rewrite !map_map. clear - Fe Pos. induction Fe as [| b e la le Q Fe IH]; [reflexivity |]. inversion Pos as [| ? ? (Tb & _) Pos']; subst. cbn [map]. rewrite (IH Pos'). f_equal.
    unfold nums_pv, rax. cbn [x_def]. rewrite map_map. destruct (entry_num _ _ Q Tb) as (-> & _). reflexivity. }
  assert (Enm : map (fun e => PStr (num:=num) (n_nm e)) ents = map PStr (map (@x_name num) (map rax ents))) by (rewrite !map_map; reflexivity).
  assert (Hr : has d (items2010 r)).
  { unfold has. apply Forall_forall2. unfold items2010, r.
    cbn [r4_common r4_vars r4_aux r4_dx r4_xname r4_nx r4_axes r4_x r4_a r4_v]. rewrite Lnx.
    apply Forall_app. split; [| apply Forall_app; split; [| apply Forall_app; split]].
    - unfold common_items. cbn [c_oname c_org c_sname c_mname c_ivol c_nvol c_date c_rdate c_scom c_ncom].
      repeat constructor; cbn [fst snd]; try assumption; apply attr_some; try discriminate; try assumption.
    - unfold var_items. unfold len_pv. rewrite map_length.
      repeat constructor; cbn [fst snd]; apply attr_some; try discriminate; try assumption.
      + rewrite As, Es. reflexivity.
      + rewrite Am, Em. reflexivity.
      + rewrite An, En. reflexivity.
    - unfold aux_items. unfold len_pv. rewrite map_length. constructor; [cbn [fst snd]; apply attr_some; try discriminate; assumption |].
      destruct (map (rec_var E) (c_aux c)) as [| q qs] eqn:Eq; [constructor |]. rewrite <- Eq in *.
      repeat constructor; cbn [fst snd]; apply attr_some; try discriminate; try assumption.
      + rewrite Bs, Fs. reflexivity.
      + rewrite Bm, Fm. reflexivity.
      + rewrite Bn, Fn. reflexivity.
    - repeat constructor; cbn [fst snd]; apply attr_some; try discriminate.
      + rewrite Dx. unfold nums_pv. cbn [map]. rewrite Edx. reflexivity.
      + rewrite Cnx. unfold nx. rewrite map_map. reflexivity.
      + rewrite Cnd, End. reflexivity.
      + rewrite Cn, Enm. reflexivity.
      + rewrite Cx, Ex. cbn [map]. do 2 f_equal. unfold nums, nums_pv. now rewrite map_map.
      + rewrite Bv, Fv. reflexivity.
      + rewrite Av, Ea. rewrite <- Lnx. reflexivity. }
  assert (Or : ok2010 r).
  { unfold ok2010, r. cbn [r4_common r4_vars r4_aux r4_dx r4_xname r4_nx r4_axes r4_x r4_a r4_v].
    split; [| split; [| split; [| split; [| split; [| split; [| split; [| split; [| split; [| split; [| split]]]]]]]]]].
    - unfold common_ok. cbn [c_oname c_org c_sname c_mname c_scom c_ncom]. do 4 (split; [assumption |]).
      split; apply Forall_forall; intros t J; rewrite Forall_forall in S3, C3;
        (split; [first [exact (S3 t J) | exact (C3 t J)] | first [exact (Cr kSCOM scom t (or_introl eq_refl) S1 J) | exact (Cr kNCOM ncom t (or_intror eq_refl) C1 J)]]).
    - unfold vars_ok. rewrite Ev at 1. split; [discriminate |]. apply Forall_forall. intros q J. apply in_map_iff in J. destruct J as (w & <- & J).
      rewrite Forall_forall in Lb. destruct (Lb w J) as (t & Ht). unfold rec_var. cbn [Records.v_name]. rewrite Ht. apply (Nv w t); [apply in_or_app; auto | exact Ht].
    - unfold auxs_ok. apply Forall_forall. intros q J. apply in_map_iff in J. destruct J as (w & <- & J).
      rewrite Forall_forall in Fb. destruct (Fb w J) as (t & Ht). unfold rec_var. cbn [Records.v_name]. rewrite Ht. apply (Nv w t); [apply in_or_app; auto | exact Ht].
    - apply (Na a nm0); [left; reflexivity | exact Cb].
    - rewrite Lnx. exact Lx.
    - rewrite map_length, Lnx. exact Lents.
    - unfold nx. rewrite Forall_map. eapply Forall_impl; [| exact Pos]. intros b (_ & Q). unfold ax_len. destruct (ax_vals b) eqn:Eb; [congruence | cbn; lia].
    - assert (Na' : forall b s, In b axes -> getBestName (ax_info b) = Ok s -> Records.name_ok s) by (intros b s J; apply (Na b s); right; exact J).
      clear - Fe Pos Na'. induction Fe as [| b e la le G Fe IH]; cbn [map]; constructor.
      + assert (Nm := proj1 (proj2 (proj2 G))). unfold rax. cbn [x_name x_def]. split; [exact (Na' b _ (or_introl eq_refl) Nm) |]. inversion Pos as [| ? ? (Tb & Nb) Pos']; subst.
        destruct (entry_num _ _ G Tb) as (_ & [(_ & ->) | (_ & Q & ->)]); destruct (ax_vals b) eqn:Eb; try discriminate; congruence.
      + inversion Pos; subst. apply IH; [assumption |]. intros b' s J. apply Na'. right. exact J.
    - rewrite !map_length. reflexivity.
    - rewrite !map_length. reflexivity.
    - rewrite map_length. exact Fl.
    - rewrite map_length. exact Ll. }
  assert (Pr : palindromic_def r).
  { unfold palindromic_def, r. cbn [r4_axes]. destruct Pal as [P1 | (l & P1 & P2)].
    - rewrite P1 in Lents. destruct ents as [| e [| ? ?]]; try discriminate Lents. reflexivity.
    - rewrite Cnd in P1. injection P1 as <-. rewrite End, map_map in P2. rewrite map_map.
      rewrite <- map_rev in P2 |- *. clear - P2. remember (rev ents) as l eqn:El. clear El. revert l P2. induction ents as [| e ents IH]; intros [| f l] P2; try discriminate P2; [reflexivity |].
      cbn [map] in P2 |- *. injection P2 as Q P2. f_equal; [apply Nat2Z.inj; exact Q | exact (IH _ P2)]. }
  assert (Fam : fam (grid_class axes) (length (r4_nx r))).
  { unfold r. cbn [r4_nx]. rewrite Lnx. unfold grid_class, fam. destruct (length axes) as [| [| [| [| ?]]]]; try lia; auto. }
  destruct Po as (P1 & P2 & P3 & P4).
  destruct (rt2010 o P1 P2 P3 g P4 _ r d _ Fam Or Pr Hr Nh h) as (file & hdr & d2 & Wf & data & d' & _ & Rf & Dd).
  exists file, hdr, d2, d'. split; [exact Wf |]. split; [exact Rf |].
  assert (G : forall k w, In (k, w) (items2010 (norm2010 g r)) -> attr d' k = w).
  { intros k w J. assert (Hd' : has d' (read_items (count_chr c_nl hdr) ++ items2010 (norm2010 g r))).
    { apply is_dict_has; [| exact Dd]. unfold items2010, aux_items. destruct (r4_aux (norm2010 g r)); cbn; nodup. }
    unfold attr. rewrite (Hd' k w); [reflexivity |]. apply in_or_app. right. exact J. }
  assert (Ic : forall k w, In (k, w) (common_items (num:=num) (Z.of_nat (S (length nx)) * 1000 + 10) (Z.of_nat (S (length nx))) (norm_common (r4_common r))) -> attr d' k = w).
  { intros k w J. apply G. unfold items2010. apply in_or_app. left. exact J. }
  assert (Iw : forall k w, In (k, w) (var_items (map norm_var (map (rec_var E) (c_main c)))) -> attr d' k = w).
  { intros k w J. apply G. unfold items2010. apply in_or_app. right. apply in_or_app. left. exact J. }
  assert (Ia : forall k w, In (k, w) (aux_items (map norm_var (map (rec_var E) (c_aux c)))) -> attr d' k = w).
  { intros k w J. apply G. unfold items2010. apply in_or_app. right. apply in_or_app. right. apply in_or_app. left. exact J. }
  assert (Ir := fun k w J => G k w (in_or_app _ _ _ (or_intror (in_or_app _ _ _ (or_intror (in_or_app _ _ _ (or_intror J))))))).
  cbn [In norm2010 r4_dx r4_axes r4_nx r4_xname r4_x r4_a r4_v r] in Ir.
  assert (Mv : forall vs, (forall w, In w vs -> miss_num (e_fill E) w <> None) -> map (@pv num) (map Records.v_miss (map norm_var (map (rec_var E) vs))) =
    map (fun w => match miss_num (e_fill E) w with Some m => PNum m | None => PNone end) vs).
  { intros vs Q. rewrite !map_map. apply map_ext_in. intros w J. specialize (Q w J). unfold miss_num in *. unfold rec_var, rec_miss. cbn [norm_var Records.v_miss head_num pv val].
    destruct (Xarray.v_miss w) as [[| z | x | t | t] |]; try (now destruct Q); reflexivity. }
  assert (Ad : forall k w, d k = Some w -> attr d k = w) by (intros k w Q; unfold attr; rewrite Q; reflexivity).
  split; [| split; [| split; [| split; [| split; [| split; [| split]]]]]].
  - intros k J. cbn [In] in J. destruct J as [<- | [<- | [<- | [<- | [<- | [<- | [<- | [<- | []]]]]]]]].
    + rewrite (Ad _ _ Hf). apply Ic. left. rewrite Lnx. reflexivity.
    + rewrite Ni. apply Ic. right. left. rewrite Lnx. reflexivity.
    + rewrite Cnx. apply Ir. right. left. unfold nx. rewrite map_map. reflexivity.
    + rewrite Cnd, End. apply Ir. do 2 right. left. f_equal. f_equal. rewrite !map_map. apply map_ext. intros e. unfold len_pv. cbn [norm_axis x_def]. rewrite map_length. reflexivity.
    + rewrite Cn, Enm. apply Ir. do 3 right. left. unfold strs_pv. cbn [map]. rewrite !map_map. reflexivity.
    + rewrite Anv. apply Iw. left. unfold len_pv. rewrite !map_length. reflexivity.
    + rewrite An, En. apply Iw. do 3 right. left. unfold strs_pv. rewrite !map_map. reflexivity.
    + rewrite Bx. apply Ia. left. unfold len_pv. rewrite !map_length. reflexivity.
  - rewrite Cx, Ex. apply Ir. do 4 right. left. cbn [map map_nums]. do 2 f_equal. unfold nums_pv, nums. cbn [map_nums]. rewrite !map_map. f_equal.
    apply map_ext. intros e. cbn [map_nums]. rewrite !map_map. f_equal. cbn [norm_axis x_def rax]. rewrite !map_map. reflexivity.
  - apply Iw. right. left. unfold nums_pv. rewrite !map_map. reflexivity.
  - apply Iw. do 2 right. left. unfold nums_pv. rewrite Mv; [reflexivity |]. intros w J. rewrite Forall_forall in Fc. apply (Fc w J).
  - apply Ir. do 6 right. left. do 2 f_equal. rewrite !map_map. apply map_ext_in. intros w J. rewrite Forall_forall in Fc.
    exact (field_returned E g _ _ w (Fc w J)).
  - apply Ir. do 5 right. left. do 2 f_equal. rewrite !map_map. apply map_ext_in. intros w J. rewrite Forall_forall in Fa.
    exact (rec_returned E g _ w (Fa w J)).
  - intros Ne. destruct (c_aux c) as [| w0 ws] eqn:Ec; [congruence |]. rewrite <- Ec in *. split; [| split].
    + rewrite Bn, Fn. apply Ia. rewrite Ec. cbn [aux_items map In]. do 3 right. left. unfold strs_pv. cbn [map]. rewrite !map_map. reflexivity.
    + apply Ia. rewrite Ec. cbn [aux_items map In]. right. left. unfold nums_pv. cbn [map]. rewrite !map_map. reflexivity.
    + apply Ia. rewrite Ec. cbn [aux_items map In]. do 2 right. left. f_equal. unfold nums_pv. f_equal. apply (Mv (w0 :: ws)).
      intros w J. rewrite Ec, Forall_forall in Fa. apply (Fa w J).
  - intros Gx.
    set (out := fun e : ent (num:=num) => mkEnt (n_nd e) (pv (head_num (num_of (n_dx e)))) (n_x e) (n_nm e)).
    assert (Fo : Forall2 entry_of axes (map out ents)).
    { clear - Fe. induction Fe as [| b e la le (Q & Q2 & Q3 & Q4) Fe IH]; cbn [map]; constructor; [| exact IH].
      split; [| split; [exact Q2 | split; [exact Q3 | right; eexists; reflexivity]]].
      destruct Q as [Q | (A1 & A2 & A0 & A3 & incr & A4 & A5)]; [left; exact Q |]. right. split; [exact A1 |]. split; [exact A2 |]. split; [exact A0 |]. split; [exact A3 |].
      exists incr. split; [| exact A5]. unfold out. cbn [n_dx]. rewrite A4. reflexivity. }
    assert (Gn : forall e, In e ents -> n_x e = map PNum (map g (xs_of e))).
    { assert (K : forall e, In e ents -> n_x e = map PNum (xs_of e) /\ exists b, In b axes /\ forall x, In x (xs_of e) -> In x (ax_vals b)).
      { clear - Fe Pos. induction Fe as [| b e la le Q Fe IH]; intros e' J; [destruct J |]. inversion Pos as [| ? ? (Tb & _) Pos']; subst. destruct J as [<- | J].
        - destruct (entry_num _ _ Q Tb) as (Q1 & Q2). split; [exact Q1 |]. exists b. split; [left; reflexivity |]. intros x Jx. destruct Q2 as [(_ & Q2) | (_ & _ & Q2)]; rewrite Q2 in Jx; [exact Jx |].
          rewrite <- (firstn_skipn 3 (ax_vals b)). apply in_or_app. left. exact Jx.
        - destruct (IH Pos' e' J) as (J0 & b' & J1 & J2). split; [exact J0 |]. exists b'. split; [right; exact J1 | exact J2]. }
      intros e J. destruct (K e J) as (J0 & b & J1 & J2). rewrite J0. rewrite <- (map_id (xs_of e)) at 1. f_equal. apply map_ext_in. intros x Jx. symmetry. exact (Gx b x J1 (J2 x Jx)). }
    destruct (axes_back axes (map out ents) Fo 0 d') as (d3 & N1 & _ & N3 & N4).
    { intros i b e A B. rewrite nth_error_map in B. destruct (nth_error ents i) as [e0 |] eqn:Be; [| discriminate B]. injection B as <-. cbn [Nat.add].
      assert (J0 : In e0 ents) by (eapply nth_error_In; exact Be).
      split; [| split; [| split]]; unfold index, nth_res.
      - erewrite (Ir kNXDEF); [| do 2 right; left; reflexivity]. cbn [as_list bindR]. rewrite !nth_error_map, Be. cbn [option_map of_opt].
        assert (L := f_equal (fun l => nth_error l i) End). cbv beta in L. rewrite !nth_error_map, Be in L. cbn [option_map] in L. injection L as L.
        unfold len_pv. cbn [norm_axis x_def]. rewrite map_length. unfold out. cbn [n_nd]. rewrite L. reflexivity.
      - erewrite (Ir kNX); [| right; left; reflexivity]. cbn [as_list bindR]. unfold nx. rewrite !nth_error_map, A. reflexivity.
      - erewrite (Ir kDX); [| left; reflexivity]. unfold nums_pv. cbn [as_list bindR map nth_error]. rewrite !nth_error_map, Be. reflexivity.
      - erewrite (Ir kX); [| do 4 right; left; reflexivity]. cbn [as_list bindR map nth_error]. rewrite !nth_error_map, Be. cbn [option_map of_opt].
        f_equal. unfold nums_pv, nums, out. cbn [n_x norm_axis x_def rax]. rewrite (Gn e0 J0), !map_map. reflexivity. }
    exists d3. split; [| split; [apply N3; lia |]].
    2: { intros i b Eb Ad0. rewrite Forall_forall in Pos. destruct (Pos b (nth_error_In _ _ Eb)) as (Tb & _). rewrite <- (items_num _ Tb). exact (N4 i b Eb Ad0). }
    unfold normalizeIndVars_2010. erewrite (Ic kNIV); [| right; left; reflexivity]. cbn [as_int bindR]. rewrite Lnx. unfold range.
    replace (Z.to_nat (Z.of_nat (S (length axes)) - 1)) with (length axes) by lia. exact N1.
Qed.
Print Assumptions C106_partial.

(** ** Examples *)
Definition zw (n : str) (l : list Z) : axis wnan := mkAx (mkNamed n [] []) [None; None; None; None] (ws l) None.
Definition rows (l : list (list Z)) : pyv wnan := PList (map (fun r => PList (map PNum (ws r))) l).
(** Three times at two levels, one cell without a value. *)
Definition gw : xvar wnan := mkVar (mkNamed (lit "q") [] []) [tw; zw (lit "z") [1; 2]%Z]
   (PList [PList (map PNum (ws [1; 2]%Z)); PList (map PNum [Nan; Num (Whole 4)]); PList (map PNum (ws [5; 6]%Z))]) None None.
(** One time, four latitudes in equal steps, three levels in different steps. *)
Definition cube : xvar wnan := mkVar (mkNamed (lit "q") [] []) [zw (lit "t") [10]%Z; zw (lit "y") [1; 2; 3; 4]%Z; zw (lit "z") [1; 2; 4]%Z]
   (PList [rows [[1; 2; 3]; [4; 5; 6]; [7; 8; 9]; [10; 11; 12]]%Z]) None None.
(** One time, three latitudes, two levels. *)
Definition slab : xvar wnan := mkVar (mkNamed (lit "q") [] []) [zw (lit "t") [10]%Z; zw (lit "y") [1; 2; 3]%Z; zw (lit "z") [1; 2]%Z]
   (PList [rows [[1; 2]; [4; 5]; [7; 8]]%Z]) None None.
Definition only (v : xvar wnan) : Res (option (list (collected wnan))) := convert env_w None (gl (lit "Test")) [v].
Definition as_read (ks : list key) (k : cls) (v : xvar wnan) : Res (list (pyv wnan)) :=
  match only v with
  | Ok (Some [c]) => match c_na c with
     | Some d => match write_body opts_wnan k false (mkW [] [] d) with
         | (Ok tt, w) => (do p <- read_file (w_file w) 0; Ok (map (attr (snd p)) ks))%res
         | (Err e, _) => Err e end
     | None => Err EUnmodelled end
  | Ok _ => Err EUnmodelled
  | Err e => Err e
  end.
Example C106_example : as_read [kX; kV; kVMISS] C2010 gw =
    Ok [rows [[10; 20; 40]; [1; 2]]; PList [rows [[1; 2]; [-99; 4]; [5; 6]]]; PList [PNum (Num (Whole (-99)))]]%Z /\
  as_read [kNX; kNXDEF; kX; kV] C3010 cube =
    Ok [PList [PInt 4; PInt 3]; PList [PInt 3; PInt 3]; rows [[10]; [1; 2; 3]; [1; 2; 4]]; PList [v_data cube]]%Z.
Proof. split; vm_compute; reflexivity. Qed.

Local Ltac names := intros; repeat match goal with J : In _ _ |- _ => cbn [In map app] in J | J : _ \/ _ |- _ => destruct J as [<- | J] | J : False |- _ => destruct J end;
  match goal with J : getBestName _ = Ok _ |- _ => vm_compute in J; injection J as <- end; apply name_ok_of; reflexivity.
Local Ltac cells := repeat first [split; [reflexivity |] | eexists | constructor]; try reflexivity.
Lemma one_grid v a b axes ffi : v_axes v = a :: b :: axes -> In (length axes) [0; 1; 2]%nat -> ffi = (Z.of_nat (2 + length axes) * 1000 + 10)%Z ->
  length (ax_nums a) = length (ax_vals a) -> Forall (fun b => ax_time b = None /\ ax_vals b <> []) (b :: axes) ->
  field (e_fill env_w) (length (ax_nums a) :: map ax_len (b :: axes)) v ->
  (forall x s, In x (a :: b :: axes) -> getBestName (ax_info x) = Ok s -> Records.name_ok s) -> (forall s, getBestName (v_info v) = Ok s -> Records.name_ok s) ->
  match only v with
    | Ok (Some [c]) => match c_na c with Some d =>
        c_main c = [v] /\ c_aux c = [] /\ map d [kFFI; kONAME; kORG; kSNAME; kMNAME; kDATE; kRDATE; kSCOM] =
          [Some (PInt ffi); Some (PStr (lit "BADC")); Some (PStr (lit "BADC")); Some (PStr (lit "Sonde")); Some (PStr (lit "Test"));
           Some (PList [PInt 999; PInt 999; PInt 999]); Some (PList [PInt 2024; PInt 1; PInt 1]); Some (PList [])] /\
        match d kNCOM with Some (PList l) => forallb (fun s => match s with PStr s => negb (mem_chr c_cr s) | _ => false end) l = true | _ => False end
      | None => False end
    | _ => False end ->
  exists c d, only v = Ok (Some [c]) /\ c_na c = Some d /\ grid_table (e_fill env_w) c d a (b :: axes).
Proof.
  intros Va Ln Ff La Pos Fi Na Nv T.
  destruct (only v) as [[[| c [|]] |] |]; try contradiction.
  destruct (c_na c) as [d |] eqn:Nd; [| contradiction].
  destruct T as (Em & Ex & Ed & En). cbn [map] in Ed. injection Ed as D1 D2 D3 D4 D5 D6 D7 D8.
  exists c, d. split; [reflexivity |]. split; [exact Nd |].
  split; [exact Nd |]. split; [cbn [In] in Ln; cbn [length]; lia |]. split; [rewrite D1, Ff; reflexivity |].
  split; [exists v, []; split; [exact Em | exact Va] |]. split; [exact La |]. split; [exact Pos |]. split; [split; [| split; [| split]] |].
  - exists (lit "BADC"), (lit "BADC"), (lit "Sonde"), (lit "Test"). repeat (split; [assumption |]). repeat split; apply title_ok_of; reflexivity.
  - exists (999, 999, 999)%Z. exact D6.
  - exists (2024, 1, 1)%Z. exact D7.
  - intros k l s [-> | ->] Q J.
    + rewrite D8 in Q. injection Q as Q. destruct l; [destruct J | discriminate Q].
    + rewrite Q in En. rewrite forallb_forall in En. specialize (En (PStr s) (in_map PStr _ _ J)). apply negb_true_iff in En. now apply mem_chr_false in En.
  - rewrite Em, Ex. split; [constructor; [exact Fi | constructor] |]. split; [constructor |]. split; [exact Na |].
    intros w s [<- | []] Hs. exact (Nv s Hs).
Qed.
(** The conditions of the theorem hold of the two variables of the example. *)
Example C106_conditions :
  (exists c d, only gw = Ok (Some [c]) /\ c_na c = Some d /\ grid_table (e_fill env_w) c d tw [zw (lit "z") [1; 2]%Z]) /\
  (exists c d, only cube = Ok (Some [c]) /\ c_na c = Some d /\ grid_table (e_fill env_w) c d (zw (lit "t") [10]%Z) [zw (lit "y") [1; 2; 3; 4]%Z; zw (lit "z") [1; 2; 4]%Z] /\
     exists l, attr d kNXDEF = PList l /\ rev l = l).
Proof.
  split.
  - apply (one_grid gw tw (zw (lit "z") [1; 2]%Z) [] 2010).
    + reflexivity.
    + cbn; auto.
    + reflexivity.
    + reflexivity.
    + repeat (constructor; [split; [reflexivity | discriminate] |]); constructor.
    + split; [reflexivity |]. split; [discriminate |]. cells.
    + names.
    + names.
    + vm_compute; repeat split.
  - destruct (one_grid cube (zw (lit "t") [10]%Z) (zw (lit "y") [1; 2; 3; 4]%Z) [zw (lit "z") [1; 2; 4]%Z] 3010) as (c & d & O & Nd & G).
    + reflexivity.
    + cbn; auto.
    + reflexivity.
    + reflexivity.
    + repeat (constructor; [split; [reflexivity | discriminate] |]); constructor.
    + split; [reflexivity |]. split; [discriminate |]. cells.
    + names.
    + names.
    + vm_compute; repeat split.
    + exists c, d. split; [exact O |]. split; [exact Nd |]. split; [exact G |].
      assert (T : match only cube with Ok (Some [c]) => match c_na c with Some d => attr d kNXDEF = PList [PInt 3; PInt 3] | None => False end | _ => False end) by (vm_compute; reflexivity).
      rewrite O, Nd in T. exists [PInt 3; PInt 3]. split; [exact T | reflexivity].
Qed.
(** Three latitudes and two levels: everything asked for is met, the file is
    written, and it cannot be read. *)
Theorem C106_refuted : exists (v : xvar wnan) cs c d a axes w e,
  convert env_w None (gl (lit "Test")) [v] = Ok (Some cs) /\ In c cs /\ grid_table (e_fill env_w) c d a axes /\ plain_opts opts_wnan (fun x => x) /\
  write_body opts_wnan (grid_class axes) false (mkW [] [] d) = (Ok tt, w) /\ read_file (num:=wnan) (w_file w) 0 = Err e.
Proof.
  destruct (one_grid slab (zw (lit "t") [10]%Z) (zw (lit "y") [1; 2; 3]%Z) [zw (lit "z") [1; 2]%Z] 3010) as (c & d & O & Nd & G).
  + reflexivity.
  + cbn; auto.
  + reflexivity.
  + reflexivity.
  + repeat (constructor; [split; [reflexivity | discriminate] |]); constructor.
  + split; [reflexivity |]. split; [discriminate |]. cells.
  + names.
  + names.
  + vm_compute; repeat split.
  + assert (T : match only slab with Ok (Some [c]) => match c_na c with Some d =>
        let r := write_body opts_wnan C3010 false (mkW [] [] d) in fst r = Ok tt /\ read_file (num:=wnan) (w_file (snd r)) 0 = Err EValueError
      | None => False end | _ => False end) by (vm_compute; split; reflexivity).
    rewrite O, Nd in T. cbv zeta in T. destruct T as (Q1 & Q2).
    exists slab, [c], c, d, (zw (lit "t") [10]%Z), [zw (lit "y") [1; 2; 3]%Z; zw (lit "z") [1; 2]%Z], (snd (write_body opts_wnan C3010 false (mkW [] [] d))), EValueError.
    split; [exact O |]. split; [left; reflexivity |]. split; [exact G |]. split; [exact plain_wnan |]. split; [apply run_pair, Q1 | exact Q2].
Qed.
Print Assumptions C106_refuted.
