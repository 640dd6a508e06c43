(** C135: the names and units of axes, from NetCDF to a NASA Ames file and back. *)
From Coq Require Import List NArith ZArith Bool Lia.
From Verif Require Import Py.Str Py.Res Py.Num Py.Arith Model.Dict Model.CommonUtils Model.Utils Model.NAWrite Model.NARead Model.NACore Model.Normalize Spec.TextSpec Spec.Records
  Spec.RoundTripSpec Spec.RewriteSpec Model.Xarray Model.Collector Model.ToXarray Spec.ValuesSpec Spec.CollectorSpec Spec.NcRoundTripSpec Spec.ToXarraySpec Spec.BackSpec Spec.GridSpec
  Spec.CompareTreeSpec Spec.WholeNum Spec.Binary64 Proofs.StrLemmas Proofs.ReadFrame Proofs.ReadFile Proofs.NumLemmas Proofs.CollectorLemmas Props.CoreProps Props.RoundTrip Props.CollectorProps
  Props.AxisProps Props.ValuesProps Props.NcRoundTrip Props.NormalizeProps Props.ToXarrayProps Props.ToXarrayMore Proofs.Convertible Props.ConvertibleProps Props.ThereAndBack Props.GridRoundTrip
  Props.GridThereAndBack Props.TimeAxis Proofs.SampleOk.
Import ListNotations.

(** [x] is what came back for the axis with name [n] and units [u]. *)
Definition axis_back {num} (n u : str) (x : axis num) : Prop :=
  (n_name (ax_info x) <> lit "time" \/ since_date u ->
     n_attr (ax_info x) (lit "units") = Some (gstr u) /\ n_attr (ax_info x) (lit "long_name") = Some (gstr (n ++ lit " (" ++ u ++ lit ")"))) /\
  (identifier n -> (forall w l, In (w, l) axis_words -> ~ part w n) -> n_name (ax_info x) = n) /\
  (identifier n -> forall w l, is_kind n w l -> n_name (ax_info x) = w).
Definition plain_axis {num} (b : axis num) (n u : str) : Prop :=
  called (ax_info b) n /\ measured_in (ax_info b) u /\ n <> [] /\ no_parentheses n /\ no_parentheses u /\ strip u = u.

Section Back.
Context {num : Type} {Num : NumOps num} {Ar : ArithOps num}.
Lemma some_inj {A} (x y : A) : Some x = Some y -> x = y.
Proof. congruence. Qed.
Lemma identifier_underscored n t : (forall c, In c n -> ~ forbidden c) -> underscored n t -> t = n.
Proof.
  intros H U. induction U as [| c s t Nc U IH | r s t Nr Fr _ U IH]; [reflexivity | f_equal; apply IH; intros x I; apply H; right; exact I |].
  exfalso. destruct r as [| c r]; [congruence |]. inversion Fr as [| x y Fc]; subst. apply (H c); [left; reflexivity | exact Fc].
Qed.
Lemma back_one (s : settings (num := num)) d' ob names axs : toXarray s d' = Ok ob -> t_callback s = None -> attr d' kXNAME = PList names -> Forall2 axis_named axs names ->
  forall v, In v (o_vars ob ++ o_aux ob) -> forall i x b n u, nth_error (v_axes v) i = Some x -> nth_error axs i = Some b -> plain_axis b n u -> axis_back n u x.
Proof.
  intros Ob Cb Xn Fn v Iv i x b n u Hx Hb (Cn & Mu & Nn & Pn & Pu & Su).
  destruct (C133_axes_partial _ _ _ _ _ _ Ob) as (w & _ & A). destruct (A v Iv i x Hx) as (long & Hl & De). clear A. rewrite Cb in De.
  destruct (C93_name_of_file _ _ _ _ Cn Mu Nn Pn Pu Su) as (Best & Split).
  assert (El : long = n ++ lit " (" ++ u ++ lit ")").
  { rewrite Xn in Hl. unfold index in Hl. cbn [as_list bindR] in Hl. unfold nth_res in Hl.
    assert (Q : nth_error names i = Some (PStr (n ++ lit " (" ++ u ++ lit ")"))); [| rewrite Q in Hl; cbn [of_opt] in Hl; injection Hl as Hl; symmetry; exact Hl].
    clear -Fn Hb Best. revert i Hb. induction Fn as [| a y l l' (t & T1 & ->) F IH]; intros [| i] Hb; cbn [nth_error] in Hb |- *; try discriminate Hb; [apply some_inj in Hb; subst a; rewrite Best in T1; apply Ok_inj in T1; rewrite T1; reflexivity | apply IH, Hb]. }
  subst long. destruct De as (name & units & raw & Sp & Nm & K1 & K2 & _ & K4 & _). rewrite Split in Sp. injection Sp as <- <-. split; [| split].
  - intros H. destruct K4 as (L1 & _ & L3); [destruct H as [H | H]; [left; exact H | right; exists u; auto] |]. split; [| exact L1].
    rewrite L3. destruct Mu as (Nu & _). destruct u; [congruence | reflexivity].
  - intros Id Nk. destruct (identifier_facts n Id) as (St & _). rewrite St in Nm. destruct Id as (_ & L & Lo & Fb). destruct (proj1 Nm L) as (t & U & ->).
    apply identifier_underscored in U; [| exact Fb]. subst t. rewrite Lo in K2. apply K2. intros w' l' (b1 & b2 & Q & P & _). rewrite Lo in P. apply (Nk w' l'); [rewrite Q; apply in_elt | exact P].
  - intros Id w' l' Kd. destruct (identifier_facts n Id) as (St & _). rewrite St in Nm. destruct Id as (_ & L & Lo & Fb). destruct (proj1 Nm L) as (t & U & ->).
    apply identifier_underscored in U; [| exact Fb]. subst t. rewrite Lo in K1. exact (proj1 (K1 w' l' Kd)).
Qed.
End Back.

(** From NetCDF to a NASA Ames file with one dimension and back.  Missing for
    the whole claim: the formats other than 1001 and those of [C135_grid_partial];
    axes without units, or with parentheses in them; what comes back for times
    with units that are not "... since" a date (C133 says what it is). *)
Theorem C135_partial : forall num (Num : NumOps num) (Ar : ArithOps num) (E : env num) req globals (vars : list (xvar num)) cs c d a (o : opts num) g
    (s : settings (num := num)) h file hdr d2 d' ob,
  plain_opts o g -> ~ In (lit "file_format_index") (map fst globals) -> ~ In (lit "no_of_nasa_ames_header_lines") (map fst globals) ->
  convert E req globals vars = Ok (Some cs) -> In c cs -> table (e_fill E) c d a -> t_callback s = None ->
  write_body o C1001 false (mkW [] h d) = (Ok tt, mkW file hdr d2) -> read_file file 0 = Ok (C1001, d') -> toXarray s d' = Ok ob ->
  forall v x n u, In v (o_vars ob ++ o_aux ob) -> nth_error (v_axes v) 0 = Some x -> plain_axis a n u -> axis_back n u x.
Proof.
  intros num Num Ar E req globals vars cs c d a o g s h file hdr d2 d' ob Po Nf Nl R I T Cb Wf Rf Ob v x n u Iv Hx Pa.
  destruct (C78_partial _ _ _ E _ _ _ _ _ _ _ _ _ Po Nf Nl R I T h) as (file1 & hdr1 & d21 & d1 & Wf1 & Rf1 & _ & Xn & _).
  rewrite Wf in Wf1. injection Wf1 as <- <- <-. rewrite Rf in Rf1. injection Rf1 as <-.
  destruct T as (Nd & Hf & (v0 & rest & Ev & Va) & _).
  destruct (C77_axes _ _ _ E _ _ _ _ _ _ _ _ _ Nf R I Ev Nd Hf) as (_ & _ & names & _ & X & F & _). rewrite X in Xn. rewrite Va in F.
  exact (back_one _ _ _ _ _ Ob Cb Xn F v Iv 0%nat x a n u Hx eq_refl Pa).
Qed.

(** The same with two, three or four dimensions. *)
Theorem C135_grid_partial : forall num (Num : NumOps num) (Ar : ArithOps num) (E : env num) req globals (vars : list (xvar num)) cs c d a axes (o : opts num) g
    (s : settings (num := num)) h file hdr d2 d' ob,
  plain_opts o g -> ~ In (lit "file_format_index") (map fst globals) -> ~ In (lit "no_of_nasa_ames_header_lines") (map fst globals) ->
  convert E req globals vars = Ok (Some cs) -> In c cs -> grid_table (e_fill E) c d a axes ->
  length axes = 1%nat \/ (exists l, attr d kNXDEF = PList l /\ rev l = l) -> t_callback s = None ->
  write_body o (grid_class axes) false (mkW [] h d) = (Ok tt, mkW file hdr d2) -> read_file file 0 = Ok (grid_class axes, d') -> toXarray s d' = Ok ob ->
  forall v i x b n u, In v (o_vars ob ++ o_aux ob) -> nth_error (v_axes v) i = Some x -> nth_error (a :: axes) i = Some b -> plain_axis b n u -> axis_back n u x.
Proof.
  intros num Num Ar E req globals vars cs c d a axes o g s h file hdr d2 d' ob Po Nf Nl R I T Pal Cb Wf Rf Ob v i x b n u Iv Hx Hb Pa.
  destruct (C106_partial _ _ _ E _ _ _ _ _ _ _ _ _ _ Po Nf Nl R I T Pal h) as (file1 & hdr1 & d21 & d1 & Wf1 & Rf1 & Keep & _).
  rewrite Wf in Wf1. injection Wf1 as <- <- <-. rewrite Rf in Rf1. injection Rf1 as <-.
  assert (Xn : attr d' kXNAME = attr d kXNAME) by (apply Keep; cbn; tauto).
  destruct T as (Nd & _ & Hf & (v0 & rest & Ev & Va) & _).
  destruct (C77_axes _ _ _ E _ _ _ _ _ _ _ _ _ Nf R I Ev Nd Hf) as (_ & _ & names & _ & X & F & _). rewrite X in Xn. rewrite Va in F.
  exact (back_one _ _ _ _ _ Ob Cb Xn F v Iv i x b n u Hx Hb Pa).
Qed.

(** ** The second time *)
Lemma starts_app p t : starts_with p (p ++ t) = true.
Proof. induction p as [| c p IH]; [reflexivity |]. cbn. rewrite N.eqb_refl. exact IH. Qed.
Lemma replace_skip p r q t : replace_aux p r (q ++ t) (length q) = replace_aux p r t 0.
Proof. induction q as [| c q IH]; [reflexivity |]. exact IH. Qed.
Lemma replace_first p r s t : ~ In c_lpar s -> replace_str (c_lpar :: p) r (s ++ (c_lpar :: p) ++ t) = s ++ r ++ replace_str (c_lpar :: p) r t.
Proof.
  unfold replace_str. induction s as [| c s IH]; intros N.
  - cbn [app replace_aux]. change (starts_with (c_lpar :: p) (c_lpar :: p ++ t)) with (starts_with (c_lpar :: p) ((c_lpar :: p) ++ t)). rewrite starts_app. cbn [length pred]. f_equal. apply replace_skip.
  - assert (D : c <> c_lpar) by (intros ->; apply N; left; reflexivity). change ((c :: s) ++ (c_lpar :: p) ++ t) with (c :: (s ++ (c_lpar :: p) ++ t)). cbn [replace_aux starts_with].
    destruct (N.eqb_spec c_lpar c) as [Q | _]; [congruence |]. cbn [andb]. cbn [app]. f_equal. apply IH. intros J. apply N. right. exact J.
Qed.
Lemma count_skip p q t : count_aux p (q ++ t) (length q) = count_aux p t 0.
Proof. induction q as [| c q IH]; [reflexivity |]. exact IH. Qed.
Lemma count_first p s t : ~ In c_lpar s -> count_str (c_lpar :: p) (s ++ (c_lpar :: p) ++ t) = S (count_str (c_lpar :: p) t).
Proof.
  unfold count_str. induction s as [| c s IH]; intros N.
  - cbn [app count_aux]. change (starts_with (c_lpar :: p) (c_lpar :: p ++ t)) with (starts_with (c_lpar :: p) ((c_lpar :: p) ++ t)). rewrite starts_app. cbn [length pred]. f_equal. apply count_skip.
  - assert (D : c <> c_lpar) by (intros ->; apply N; left; reflexivity). change ((c :: s) ++ (c_lpar :: p) ++ t) with (c :: (s ++ (c_lpar :: p) ++ t)). cbn [count_aux starts_with].
    destruct (N.eqb_spec c_lpar c) as [Q | _]; [congruence |]. cbn [andb]. apply IH. intros J. apply N. right. exact J.
Qed.
(** A name that ends with the units already gets one more blank before them. *)
Theorem C135_second : forall num (i : named num) n u, called i (n ++ lit " (" ++ u ++ lit ")") -> measured_in i u ->
  no_parentheses n -> no_parentheses u -> strip u = u -> getBestName i = Ok (n ++ lit "  (" ++ u ++ lit ")").
Proof.
  intros num i n u C M (N1 & _) (U1 & _) Su. unfold getBestName. rewrite (called_first _ _ C). cbn [bindR].
  assert (Nn : is_nil (n ++ lit " (" ++ u ++ lit ")") = false) by (destruct n; reflexivity). rewrite Nn. clear Nn. rewrite (measured_units _ _ M Su). cbn [bindR]. cbv zeta.
  destruct M as (Nu & _). assert (Hu : is_nil u = false) by (destruct u; [congruence | reflexivity]). rewrite Hu.
  set (p := u ++ [c_rpar]). change (lit ")") with [c_rpar]. fold p. change ([c_lpar] ++ p) with (c_lpar :: p).
  assert (Q : (n ++ lit " (" ++ p) ++ lit " " ++ c_lpar :: p = (n ++ lit " ") ++ (c_lpar :: p) ++ lit " " ++ (c_lpar :: p) ++ []).
  { rewrite app_nil_r. change (lit " (" ++ p) with (lit " " ++ c_lpar :: p). rewrite <- !app_assoc. reflexivity. }
  rewrite Q. assert (Nb : ~ In c_lpar (lit " ")) by (intros [J | []]; discriminate J).
  assert (Nn : ~ In c_lpar (n ++ lit " ")) by (intros J; apply in_app_or in J as [J | J]; contradiction).
  rewrite !count_first, !replace_first by assumption. change (1 <? S (S (count_str (c_lpar :: p) [])))%nat with true. cbn iota. cbn [app].
  change (replace_str (c_lpar :: p) [] []) with (@nil chr). rewrite app_nil_r.
  replace (((n ++ lit " ") ++ lit " ") ++ c_lpar :: p) with (n ++ lit "  (" ++ p) by (rewrite <- !app_assoc; reflexivity).
  destruct (@exists_last _ u Nu) as (up & ul & Eu).
  assert (Hl : ul <> c_lpar) by (intros ->; apply U1; rewrite Eu; apply in_or_app; right; left; reflexivity).
  replace (n ++ lit "  (" ++ p) with ((n ++ lit "  (" ++ up) ++ [ul; c_rpar]) at 1 by (unfold p; rewrite Eu, <- !app_assoc; reflexivity).
  rewrite not_parens by exact Hl. reflexivity.
Qed.

(** ** Examples *)
Definition axis_u (n u : str) (l : list b64) : axis b64 := mkAx (mkNamed n [(lit "units", gstr u)] []) [None; None; None; None] l None.
Definition over (a : axis b64) : xvar b64 := mkVar (mkNamed (lit "q") [] []) [a] (bdata [bf "1"; bf "2"; bf "3"]) None None.
Definition axis_texts (r : Res (objects (num := b64))) : Res (list (str * option (gval b64) * option (gval b64))) :=
  (do ob <- r; Ok (map (fun a => (ax_name a, n_attr (ax_info a) (lit "long_name"), n_attr (ax_info a) (lit "units"))) (concat (map v_axes (o_vars ob)))))%res.
Definition trip (a : axis b64) : Res (objects (num := b64)) := there_and_back env_b opts_b64 plain_settings (gl (lit "Test")) [over a].
Definition again (r : Res (objects (num := b64))) : Res (objects (num := b64)) :=
  (do ob <- r; match concat (map v_axes (o_vars ob)) with [a] => trip a | _ => Err EUnmodelled end)%res.
Definition km : axis b64 := axis_u (lit "depth") (lit "km") [bf "10"; bf "20"; bf "40"].
Example C135_example : axis_texts (trip km) = Ok [(lit "depth", Some (gstr (lit "depth (km)")), Some (gstr (lit "km")))] /\
  axis_texts (trip (axis_u (lit "time_of_day") (lit "days since 2000-01-01") [bf "10"; bf "20"; bf "40"])) =
    Ok [(lit "time", Some (gstr (lit "time_of_day (days since 2000-01-01)")), Some (gstr (lit "days since 2000-01-01")))] /\
  plain_axis km (lit "depth") (lit "km").
Proof.
  split; [vm_compute; reflexivity |]. split; [vm_compute; reflexivity |].
  split; [right; repeat split; right; split; [reflexivity | right; split; reflexivity] |]. split; [split; [discriminate | left; reflexivity] |].
  repeat split; try discriminate; intros Q; vm_compute in Q; repeat (destruct Q as [Q | Q]; [discriminate Q |]); exact Q.
Qed.
(** The name grows by a blank each time. *)
Theorem C135_refuted : exists a : axis b64, plain_axis a (lit "depth") (lit "km") /\
  axis_texts (again (trip a)) = Ok [(lit "depth", Some (gstr (lit "depth  (km)")), Some (gstr (lit "km")))] /\
  axis_texts (again (again (trip a))) = Ok [(lit "depth", Some (gstr (lit "depth   (km)")), Some (gstr (lit "km")))].
Proof. exists km. split; [exact (proj2 (proj2 C135_example)) |]. split; vm_compute; reflexivity. Qed.
(** The conditions of [C135_grid_partial]: three times at two depths. *)
Definition axis_w (n u : str) (l : list Z) : axis wnan := mkAx (mkNamed n [(lit "units", gstr u)] []) [None; None; None; None] (ws l) None.
Definition hour_w : axis wnan := axis_w (lit "t") (lit "h") [10; 20; 40]%Z.
Definition depth_w : axis wnan := axis_w (lit "depth") (lit "km") [1; 2]%Z.
Definition field_w : xvar wnan := mkVar (mkNamed (lit "q") [] []) [hour_w; depth_w] (rows [[1; 2]; [3; 4]; [5; 6]]%Z) None None.
Local Ltac names := intros; repeat match goal with J : In _ _ |- _ => cbn [In map app] in J | J : _ \/ _ |- _ => destruct J as [<- | J] | J : False |- _ => destruct J end;
  match goal with J : getBestName _ = Ok _ |- _ => vm_compute in J; injection J as <- end; apply name_ok_of; reflexivity.
Local Ltac cells := repeat first [split; [reflexivity |] | eexists | constructor]; try reflexivity.
Example C135_conditions : exists c d, only field_w = Ok (Some [c]) /\ grid_table (e_fill env_w) c d hour_w [depth_w] /\
  plain_axis hour_w (lit "t") (lit "h") /\ plain_axis depth_w (lit "depth") (lit "km") /\ identifier (lit "depth") /\
  match write_body opts_wnan C2010 false (mkW [] [] d) with
  | (Ok tt, w) => exists d' ob, read_file (w_file w) 0 = Ok (C2010, d') /\ toXarray settings_w d' = Ok ob /\
      map (fun a => (ax_name a, n_attr (ax_info a) (lit "units"))) (concat (map v_axes (o_vars ob))) =
        [(lit "t", Some (gstr (lit "h"))); (lit "depth", Some (gstr (lit "km")))]
  | _ => False end.
Proof.
  destruct (one_grid field_w hour_w depth_w [] 2010) as (c & d & O & Nd & G).
  - reflexivity.
  - cbn; auto.
  - reflexivity.
  - reflexivity.
  - repeat (constructor; [split; [reflexivity | discriminate] |]); constructor.
  - split; [reflexivity |]. split; [discriminate |]. cells.
  - names.
  - names.
  - vm_compute; repeat split.
  - exists c, d. split; [exact O |]. split; [exact G |].
    assert (P : forall n u l, n <> [] -> u <> [] -> strip u = u -> no_parentheses n -> no_parentheses u -> plain_axis (axis_w n u l) n u).
    { intros n u l Nn Nu Su Pn Pu. split; [right; split; [reflexivity | right; split; [reflexivity | right; split; reflexivity]] |].
      split; [split; [exact Nu | left; reflexivity] |]. auto. }
    assert (N : no_parentheses (lit "t") /\ no_parentheses (lit "h") /\ no_parentheses (lit "depth") /\ no_parentheses (lit "km")).
    { repeat split; intros Q; vm_compute in Q; repeat (destruct Q as [Q | Q]; [discriminate Q |]); exact Q. }
    destruct N as (N1 & N2 & N3 & N4).
    split; [apply P; [discriminate | discriminate | reflexivity | exact N1 | exact N2] |].
    split; [apply P; [discriminate | discriminate | reflexivity | exact N3 | exact N4] |]. split.
    + split; [discriminate |]. split; [cbn; lia |]. split; [reflexivity |]. intros x I Q. apply unsafe_iff in Q. vm_compute in I.
      repeat (destruct I as [<- | I]; [discriminate Q |]). destruct I.
    + assert (T : match only field_w with Ok (Some [c]) => match c_na c with Some d =>
          match write_body opts_wnan C2010 false (mkW [] [] d) with
          | (Ok tt, w) => match read_file (w_file w) 0 with Ok (C2010, d') => match toXarray settings_w d' with Ok ob =>
              map (fun a => (ax_name a, n_attr (ax_info a) (lit "units"))) (concat (map v_axes (o_vars ob))) =
              [(lit "t", Some (gstr (lit "h"))); (lit "depth", Some (gstr (lit "km")))] | _ => False end | _ => False end
          | _ => False end | None => False end | _ => False end) by (vm_compute; reflexivity).
      rewrite O, Nd in T. destruct (write_body opts_wnan C2010 false (mkW [] [] d)) as [[[] | e] w]; [| exact T].
      destruct (read_file (w_file w) 0) as [[[] d'] |]; try contradiction. destruct (toXarray settings_w d') as [ob |] eqn:Q; [| contradiction]. exists d', ob. auto.
Qed.
Print Assumptions C135_partial.
Print Assumptions C135_grid_partial.
Print Assumptions C135_second.
Print Assumptions C135_refuted.
