(** Property C113: the object that reads a file tells what was written
    (nappy/na_file/na_core.py). *)
From Coq Require Import List NArith ZArith Bool Lia.
From Verif Require Import Py.Str Py.Res Py.Num Model.Dict Model.TextParser Model.CommonUtils Model.NAWrite Model.NARead
  Model.NACore Model.NAObject Spec.TextSpec Spec.Records Spec.ZNum Spec.WholeNum Spec.RecordSamples Spec.RoundTripSpec
  Spec.ObjectSpec Proofs.StrLemmas Proofs.TextLemmas Proofs.ReadFrame Proofs.RTText Proofs.RT6 Proofs.SampleOk
  Props.UtilProps Props.CoreProps Props.RoundTrip.
Import ListNotations.

Section Getters.
Context {num : Type} `{NumOps num}.

(** What all getters for header items return: [n] header lines, the FFI and the
    common part; white space at the ends of comments is gone. *)
Definition tells_header (obj : na num) (n : nat) (ffi : Z) (c : common) : Prop :=
  getNumHeaderLines obj = PInt (Z.of_nat n) /\ getFFI obj = PInt ffi /\
  getOriginator obj = PStr (c_oname c) /\ getOrganisation obj = PStr (c_org c) /\ getOrg obj = PStr (c_org c) /\
  getSource obj = PStr (c_sname c) /\ getMission obj = PStr (c_mname c) /\
  getVolumes obj = (PInt (c_ivol c), PInt (c_nvol c)) /\
  getFileDates obj = (date_pv (c_date c), date_pv (c_rdate c)) /\
  getNormalComments obj = strs_pv (map strip (c_ncom c)) /\ getSpecialComments obj = strs_pv (map strip (c_scom c)).
(** A tuple (name, units, missing value, scale factor) for a variable. *)
Definition tells (m : meta num) (i : var_info (num:=num)) : Prop :=
  splits (m_name m) (i_name i, i_units i) /\ i_miss i = m_miss m /\ i_scale i = m_scal m.

Lemma name_splits s : name_ok s -> splits s (attemptVarAndUnitsMatch None s).
Proof.
  intros [[[Hn _] Ht] _]. split.
  - intros K. rewrite C35_no_units by exact K. now rewrite trimmed_strip.
  - intros name units E A1 A2 B1 B2 B3. rewrite E.
    assert (Nn : ~ In c_nl name /\ ~ In c_nl units).
    { split; intros K; apply Hn; rewrite E; apply in_or_app; auto. right. cbn [app]. right. apply in_or_app. auto. }
    pose proof (C35_name_and_units [] name units []) as K. cbn [app] in K. rewrite ?app_nil_r in K.
    apply K; try (split; assumption); try constructor; tauto.
Qed.

(** The dictionary of an object has what the getters need. *)
Record shows (obj : na num) (n : nat) (ffi niv : Z) (c : common) (vs aux : list (meta num)) (xs : list str) (nc : nat) : Prop := {
  sh_items : has obj (read_items n ++ common_items ffi niv c);
  sh_niv : niv = Z.of_nat (length xs);
  sh_nv : obj kNV = Some (len_pv vs);
  sh_vscal : obj kVSCAL = Some (PList (map m_scal vs));
  sh_vmiss : obj kVMISS = Some (PList (map m_miss vs));
  sh_vname : obj kVNAME = Some (strs_pv (map m_name vs));
  sh_xname : obj kXNAME = Some (strs_pv xs);
  sh_naux : obj kNAUXV = Some (len_pv aux) \/ obj kNAUXV = None /\ aux = [];
  sh_naux_n : match nc with O => obj kNAUXC = None | _ => obj kNAUXC = Some (PInt (Z.of_nat nc)) end;
  sh_aux : aux <> [] -> exists sc, obj kASCAL = Some (PList sc) /\
    map m_scal aux = sc ++ repeat PNone nc /\
    obj kAMISS = Some (PList (map m_miss aux)) /\ obj kANAME = Some (strs_pv (map m_name aux))
}.
Lemma Forall2_of_mapR {A B} (f : A -> Res B) (P : A -> B -> Prop) l :
  (forall a, In a l -> exists b, f a = Ok b /\ P a b) -> exists r, mapR f l = Ok r /\ Forall2 P l r.
Proof.
  induction l as [|a l IH]; intros K; [exists []; split; [reflexivity|constructor]|].
  destruct (K a (or_introl eq_refl)) as (b & Eb & Pb). destruct IH as (r & Er & Hr); [intros; apply K; now right|].
  exists (b :: r). cbn [mapR]. rewrite Eb. cbn [bindR]. rewrite Er. cbn [bindR]. split; [reflexivity|now constructor].
Qed.
Lemma Forall2_seq {A B} (P : A -> B -> Prop) (l : list A) (r : list B) s :
  Forall2 (fun i b => exists a, nth_error l (i - s) = Some a /\ P a b) (seq s (length l)) r -> Forall2 P l r.
Proof.
  revert s r. induction l as [|a l IH]; intros s r F; cbn [length seq] in F; inversion F as [|? b ? r' Hb F' ]; subst; constructor.
  - destruct Hb as (a' & E & Pa). rewrite Nat.sub_diag in E. now injection E as ->.
  - apply (IH (S s)). clear - F'.
    assert (G : forall m, (s < m)%nat -> forall k r', Forall2 (fun i b => exists a0, nth_error (a :: l) (i - s) = Some a0 /\ P a0 b) (seq m k) r' ->
              Forall2 (fun i b => exists a0, nth_error l (i - S s) = Some a0 /\ P a0 b) (seq m k) r').
    { intros m Hm k. revert m Hm. induction k as [|k IHk]; intros m Hm r0 F0; cbn [seq] in *; inversion F0; subst; constructor; [|apply IHk; [lia|assumption]].
      destruct H1 as (a0 & E & Pa). exists a0. split; [|exact Pa]. replace (m - s)%nat with (S (m - S s)) in E by lia. exact E. }
    apply G; [lia|exact F'].
Qed.
Lemma all_told (f : nat -> Res (var_info (num:=num))) (l : list (meta num)) :
  (forall i m, nth_error l i = Some m -> exists b, f i = Ok b /\ tells m b) ->
  exists infos, mapR f (range (Z.of_nat (length l))) = Ok infos /\ Forall2 tells l infos.
Proof.
  intros K. unfold range. rewrite Nat2Z.id.
  destruct (Forall2_of_mapR f (fun i b => exists a, nth_error l (i - 0) = Some a /\ tells a b) (seq 0 (length l))) as (r & Er & Hr).
  - intros i Hi. apply in_seq in Hi. rewrite Nat.sub_0_r. destruct (nth_error l i) as [m|] eqn:E; [|apply nth_error_None in E; lia].
    destruct (K i m E) as (b & Eb & Tb). exists b. split; [exact Eb|]. exists m. auto.
  - exists r. split; [exact Er|]. now apply Forall2_seq with (s := 0%nat).
Qed.
Lemma nth_strs {A} (f : A -> str) (l : list A) i m : nth_error l i = Some m -> nth_error (map PStr (map f l)) i = Some (@PStr num (f m)).
Proof. intros E. rewrite !nth_error_map, E. reflexivity. Qed.

Lemma shows_tells obj n ffi niv c vs aux xs nc : shows obj n ffi niv (norm_common c) vs aux xs nc ->
  Forall (fun m => name_ok (m_name m)) (vs ++ aux) -> Forall name_ok xs ->
  tells_header obj n ffi c /\
  (exists infos, getVariables None obj = Ok infos /\ Forall2 tells vs infos) /\
  (exists infos, getAuxVariables None obj = Ok infos /\ Forall2 tells aux infos) /\
  (exists names, getIndependentVariables None obj = Ok names /\ Forall2 splits xs names).
Proof.
  intros Sh Fn Fx. rewrite Forall_forall in Fn.
  assert (Hc : forall k v, In (k, v) (read_items n ++ common_items ffi niv (norm_common c)) -> attr obj k = v).
  { intros k v I. unfold attr. now rewrite (sh_items _ _ _ _ _ _ _ _ _ Sh k v I). }
  split; [|split; [|split]].
  - unfold tells_header, getNumHeaderLines, getFFI, getOriginator, getOrg, getOrganisation, getSource, getMission, getVolumes, getFileDates, getNormalComments, getSpecialComments.
    repeat split; try (apply Hc; cbn; tauto); f_equal; apply Hc; cbn; tauto.
  - unfold getVariables. unfold attr at 1. rewrite (sh_nv _ _ _ _ _ _ _ _ _ Sh). cbn [as_int bindR len_pv]. unfold len_pv. cbn [as_int bindR].
    apply all_told. intros i m E. unfold getVariable.
    rewrite (name_of_ok None obj kVNAME _ i (m_name m) (sh_vname _ _ _ _ _ _ _ _ _ Sh) (nth_strs m_name vs i m E)). cbn [bindR].
    unfold getMissingValue, getScaleFactor, attr. rewrite (sh_vmiss _ _ _ _ _ _ _ _ _ Sh), (sh_vscal _ _ _ _ _ _ _ _ _ Sh).
    rewrite (index_nth _ i (m_miss m)) by now rewrite nth_error_map, E. cbn [bindR].
    rewrite (index_nth _ i (m_scal m)) by now rewrite nth_error_map, E. cbn [bindR].
    eexists. split; [reflexivity|]. split; [|split; reflexivity]. cbn [i_name i_units].
    rewrite <- surjective_pairing. apply name_splits, Fn, in_or_app. left. eapply nth_error_In, E.
  - unfold getAuxVariables. unfold attr at 1. destruct (sh_naux _ _ _ _ _ _ _ _ _ Sh) as [E1 | [E1 ->]]; rewrite E1.
    2:{ exists []. split; [reflexivity|constructor]. }
    unfold len_pv. cbn [as_int bindR]. apply all_told. intros i m E.
    assert (Ha : aux <> []) by (intros ->; now destruct i).
    destruct (sh_aux _ _ _ _ _ _ _ _ _ Sh Ha) as (sc & A1 & A2 & A3 & A4). unfold getAuxVariable.
    rewrite (name_of_ok None obj kANAME _ i (m_name m) A4 (nth_strs m_name aux i m E)). cbn [bindR].
    unfold getAuxMissingValue, getAuxScaleFactor, attr. rewrite A3.
    rewrite (index_nth _ i (m_miss m)) by now rewrite nth_error_map, E. cbn [bindR].
    assert (Es : nth_error (sc ++ repeat PNone nc) i = Some (m_scal m)) by now rewrite <- A2, nth_error_map, E.
    assert (Ls : (length aux = length sc + nc)%nat) by now rewrite <- (map_length m_scal aux), A2, app_length, repeat_length.
    assert (T : forall sc', sc' = m_scal m -> tells m (mkInfo (fst (attemptVarAndUnitsMatch None (m_name m))) (snd (attemptVarAndUnitsMatch None (m_name m))) (m_miss m) sc')).
    { intros sc' ->. split; [|split; reflexivity]. cbn [i_name i_units]. rewrite <- surjective_pairing. apply name_splits, Fn, in_or_app. right. eapply nth_error_In, E. }
    pose proof (sh_naux_n _ _ _ _ _ _ _ _ _ Sh) as Hn. rewrite A1, E1.
    destruct nc as [|nc].
    + rewrite Hn. cbn [repeat default_attr] in *. rewrite app_nil_r in Es. rewrite (index_nth _ i (m_scal m)) by exact Es. cbn [bindR]. eauto.
    + rewrite Hn. unfold len_pv. cbn [as_int bindR].
      destruct (Z.ltb_spec (Z.of_nat i) (Z.of_nat (length aux) - Z.of_nat (S nc))) as [Hl | Hl].
      * rewrite nth_error_app1 in Es by lia. rewrite (index_nth _ i (m_scal m)) by exact Es. cbn [bindR]. eauto.
      * rewrite nth_error_app2 in Es by lia. apply nth_error_In, repeat_spec in Es. cbn [bindR]. eauto.
  - unfold getIndependentVariables. unfold attr at 1.
    rewrite (sh_items _ _ _ _ _ _ _ _ _ Sh kNIV (PInt niv)) by (cbn; tauto). cbn [as_int bindR].
    rewrite (sh_niv _ _ _ _ _ _ _ _ _ Sh). unfold range. rewrite Nat2Z.id.
    destruct (Forall2_of_mapR (getIndependentVariable None obj) (fun i b => exists a, nth_error xs (i - 0) = Some a /\ splits a b) (seq 0 (length xs))) as (r & Er & Hr).
    + intros i Hi. apply in_seq in Hi. rewrite Nat.sub_0_r. destruct (nth_error xs i) as [x|] eqn:E; [|apply nth_error_None in E; lia].
      eexists. split; [|exists x; split; [reflexivity|]].
      * unfold getIndependentVariable. apply (name_of_ok None obj kXNAME _ i x (sh_xname _ _ _ _ _ _ _ _ _ Sh)). now rewrite nth_error_map, E.
      * apply name_splits. rewrite Forall_forall in Fx. eapply Fx, nth_error_In, E.
    + exists r. split; [exact Er|]. now apply Forall2_seq with (s := 0%nat).
Qed.
End Getters.

Section Main.
Context {num : Type} `{NumOps num}.

Lemma has_app (d : na num) l1 l2 : has d (l1 ++ l2) -> has d l1 /\ has d l2.
Proof. intros K. split; intros k v I; apply K, in_or_app; auto. Qed.
Lemma shows_common (obj : na num) n ffi niv c vs xs : has obj (read_items n ++ common_items ffi niv c ++ var_items (map norm_var vs)) ->
  obj kXNAME = Some (strs_pv xs) -> niv = Z.of_nat (length xs) -> obj kNAUXV = None -> obj kNAUXC = None ->
  shows obj n ffi niv c (map var_meta vs) [] xs 0.
Proof.
  intros K Kx Kn Ka Kc. rewrite app_assoc in K. apply has_app in K as [K1 K2]. split; auto.
  - rewrite (K2 kNV _ (or_introl eq_refl)). unfold len_pv. now rewrite !map_length.
  - rewrite (K2 kVSCAL _ (or_intror (or_introl eq_refl))). unfold nums_pv. now rewrite !map_map.
  - rewrite (K2 kVMISS _ (or_intror (or_intror (or_introl eq_refl)))). unfold nums_pv. now rewrite !map_map.
  - rewrite (K2 kVNAME _ (or_intror (or_intror (or_intror (or_introl eq_refl))))). unfold strs_pv. now rewrite !map_map.
  - intros K. now destruct K.
Qed.
Lemma shows_aux (obj : na num) n ffi niv c vs aux xs : has obj (read_items n ++ common_items ffi niv c ++ var_items (map norm_var vs)) ->
  has obj (aux_items (map norm_var aux)) ->
  obj kXNAME = Some (strs_pv xs) -> niv = Z.of_nat (length xs) -> obj kNAUXC = None ->
  shows obj n ffi niv c (map var_meta vs) (map var_meta aux) xs 0.
Proof.
  intros K L Kx Kn Kc. rewrite app_assoc in K. apply has_app in K as [K1 K2]. split; auto.
  - rewrite (K2 kNV _ (or_introl eq_refl)). unfold len_pv. now rewrite !map_length.
  - rewrite (K2 kVSCAL _ (or_intror (or_introl eq_refl))). unfold nums_pv. now rewrite !map_map.
  - rewrite (K2 kVMISS _ (or_intror (or_intror (or_introl eq_refl)))). unfold nums_pv. now rewrite !map_map.
  - rewrite (K2 kVNAME _ (or_intror (or_intror (or_intror (or_introl eq_refl))))). unfold strs_pv. now rewrite !map_map.
  - left. rewrite (L kNAUXV _ (or_introl eq_refl)). unfold len_pv. now rewrite !map_length.
  - intros Ha. destruct aux as [|a aux]; [now destruct Ha|]. cbn [map aux_items] in L.
    eexists. split; [apply L; right; left; reflexivity|]. split; [|split].
    + unfold nums_pv. cbn [map]. rewrite app_nil_r. now rewrite !map_map.
    + rewrite (L kAMISS _ (or_intror (or_intror (or_introl eq_refl)))). unfold nums_pv. cbn [map]. now rewrite !map_map.
    + rewrite (L kANAME _ (or_intror (or_intror (or_intror (or_introl eq_refl))))). unfold strs_pv. cbn [map]. now rewrite !map_map.
Qed.

Ltac nodup := repeat (constructor; [cbn; intuition discriminate|]); constructor.
Ltac inside := repeat first [assumption | solve [apply in_or_app; left; assumption] | apply in_or_app; right].
Ltac sits := repeat first [solve [cbn [In]; tauto] | apply in_or_app; right].
Ltac part K := let k := fresh in let v := fresh in let I := fresh in intros k v I; apply K;
  repeat match type of I with In _ (_ ++ _) => apply in_app_or in I; destruct I as [I | I] end;
  inside.
Lemma aux_names r : auxs_ok r -> Forall (fun m => name_ok (m_name m)) (map (var_meta (num:=num)) r).
Proof. intros K. apply Forall_map. eapply Forall_impl; [|exact K]. auto. Qed.
Lemma var_names r : vars_ok r -> Forall (fun m => name_ok (m_name m)) (map (var_meta (num:=num)) r).
Proof. intros [_ K]. now apply aux_names. Qed.

(** Well-formed data of any of the nine formats are written; the object that
    reads the file tells the number of header lines, the FFI, the names, the
    volumes, the dates and the comments of the header, and for every variable,
    auxiliary variable and independent variable its name, its units and (but
    for independent variables) its missing value and its scale factor. *)
Theorem C113_getters : forall (o : opts num) g d nlh c ffi cm vs aux xs,
  plain_opts o g -> attr d kNLHEAD = PInt nlh -> well_formed g d c ffi cm vs aux xs ->
  forall h, exists file hdr data d2 obj,
    write_body o c false (mkW [] h d) = (Ok tt, mkW file hdr d2) /\ file = hdr ++ data /\
    read_file file 0 = Ok (c, obj) /\
    tells_header obj (count_chr c_nl hdr) ffi cm /\
    (exists infos, getVariables None obj = Ok infos /\ Forall2 tells vs infos) /\
    (exists infos, getAuxVariables None obj = Ok infos /\ Forall2 tells aux infos) /\
    (exists names, getIndependentVariables None obj = Ok names /\ Forall2 splits xs names).
Proof.
  intros o g d nlh c ffi cm vs aux xs Ho Hn W h.
  assert (F : Forall (fun m => name_ok (m_name m)) (vs ++ aux) /\ Forall name_ok xs).
  { split.
    - apply Forall_app. destruct W as [r K|r K|r K|r K|r K|r K|r K|r K|r K]; hnf in K; decompose [and] K; split; auto using var_names, aux_names.
      + apply Forall_app. split; [now apply aux_names|]. apply Forall_map. eapply Forall_impl; [|eassumption]. now intros a [_ ?].
    - destruct W as [r K|r K|r K|r K|r K|r K|r K|r K|r K]; hnf in K; decompose [and] K; repeat (apply Forall_cons; [assumption|]); try apply Forall_nil;
        apply Forall_map; (eapply Forall_impl; [|eassumption]); now intros a [? _]. }
  destruct F as [F1 F2].
  assert (G : exists niv nc items, comes_back o c d items /\ forall obj n, is_dict obj (read_items n ++ items) -> shows obj n ffi niv (norm_common cm) vs aux xs nc).
  { destruct W as [r K I|r K I|r K I|r K L I|r K L P I|r K L P I|r K I|r K I J|r K I].
    - exists 1%Z, 0%nat, (items1001 (norm1001 g r)). split; [eapply C09_roundtrip_1001; eauto|]. intros obj n D.
      assert (Hh : has obj (read_items n ++ items1001 (norm1001 g r))) by (apply is_dict_has; [nodup|exact D]).
      unfold items1001 in Hh. cbn [norm1001 r1_common r1_vars r1_dx r1_xname] in Hh.
      apply shows_common; auto; [part Hh| | |]; rewrite (D _); reflexivity.
    - exists 1%Z, 0%nat, (items1010 (norm1010 g r)). split; [eapply C10_roundtrip_1010; eauto|]. intros obj n D.
      assert (Hh : has obj (read_items n ++ items1010 (norm1010 g r))).
      { apply is_dict_has; [|exact D]. destruct r as [? ? [|? ?] ? ? ? ? ?]; nodup. }
      unfold items1010 in Hh. cbn [norm1010 r2_common r2_vars r2_aux r2_dx r2_xname] in Hh.
      apply shows_aux; auto; [part Hh|part Hh|apply Hh; sits|].
      rewrite (D _). destruct r as [? ? [|? ?] ? ? ? ? ?]; reflexivity.
    - exists 1%Z, 0%nat, (items1020 (norm1020 g r)). split; [eapply C11_roundtrip_1020; eauto|]. intros obj n D.
      assert (Hh : has obj (read_items n ++ items1020 (norm1020 g r))).
      { apply is_dict_has; [|exact D]. destruct r as [? ? [|? ?] ? ? ? ? ? ?]; nodup. }
      unfold items1020 in Hh. cbn [norm1020 r3_common r3_vars r3_aux r3_dx r3_xname] in Hh.
      apply shows_aux; auto; [part Hh|part Hh|apply Hh; sits|].
      rewrite (D _). destruct r as [? ? [|? ?] ? ? ? ? ? ?]; reflexivity.
    - exists 2%Z, 0%nat, (items2010 (norm2010 g r)). split; [eapply C12_roundtrip_2010; eauto|]. intros obj n D.
      assert (Hh : has obj (read_items n ++ items2010 (norm2010 g r))).
      { apply is_dict_has; [|exact D]. destruct r as [? ? [|? ?] ? ? ? ? ? ?]; nodup. }
      unfold items2010 in Hh. cbn [norm2010 r4_common r4_vars r4_aux r4_dx r4_xname r4_nx r4_axes] in Hh. cbv zeta in Hh.
      assert (E1 : 2010%Z = (Z.of_nat (S (length (r4_nx r))) * 1000 + 10)%Z) by now rewrite L.
      assert (E2 : 2%Z = Z.of_nat (S (length (r4_nx r)))) by now rewrite L. rewrite E1, E2.
      hnf in K; decompose [and] K.
      apply shows_aux; auto; [part Hh|part Hh| | |].
      + change (map x_name (r4_axes r)) with (map (fun a => x_name (norm_axis g a)) (r4_axes r)). rewrite <- map_map. apply Hh; sits.
      + cbn [length]. rewrite map_length. lia.
      + rewrite (D _). destruct r as [? ? [|? ?] ? ? ? ? ? ?]; reflexivity.
    - exists 3%Z, 0%nat, (items2010 (norm2010 g r)). split; [eapply C13_roundtrip_3010_4010_partial; eauto|]. intros obj n D.
      assert (Hh : has obj (read_items n ++ items2010 (norm2010 g r))).
      { apply is_dict_has; [|exact D]. destruct r as [? ? [|? ?] ? ? ? ? ? ?]; nodup. }
      unfold items2010 in Hh. cbn [norm2010 r4_common r4_vars r4_aux r4_dx r4_xname r4_nx r4_axes] in Hh. cbv zeta in Hh.
      assert (E1 : 3010%Z = (Z.of_nat (S (length (r4_nx r))) * 1000 + 10)%Z) by now rewrite L.
      assert (E2 : 3%Z = Z.of_nat (S (length (r4_nx r)))) by now rewrite L. rewrite E1, E2.
      hnf in K; decompose [and] K.
      apply shows_aux; auto; [part Hh|part Hh| | |].
      + change (map x_name (r4_axes r)) with (map (fun a => x_name (norm_axis g a)) (r4_axes r)). rewrite <- map_map. apply Hh; sits.
      + cbn [length]. rewrite map_length. lia.
      + rewrite (D _). destruct r as [? ? [|? ?] ? ? ? ? ? ?]; reflexivity.
    - exists 4%Z, 0%nat, (items2010 (norm2010 g r)). split; [eapply C13_roundtrip_3010_4010_partial; eauto|]. intros obj n D.
      assert (Hh : has obj (read_items n ++ items2010 (norm2010 g r))).
      { apply is_dict_has; [|exact D]. destruct r as [? ? [|? ?] ? ? ? ? ? ?]; nodup. }
      unfold items2010 in Hh. cbn [norm2010 r4_common r4_vars r4_aux r4_dx r4_xname r4_nx r4_axes] in Hh. cbv zeta in Hh.
      assert (E1 : 4010%Z = (Z.of_nat (S (length (r4_nx r))) * 1000 + 10)%Z) by now rewrite L.
      assert (E2 : 4%Z = Z.of_nat (S (length (r4_nx r)))) by now rewrite L. rewrite E1, E2.
      hnf in K; decompose [and] K.
      apply shows_aux; auto; [part Hh|part Hh| | |].
      + change (map x_name (r4_axes r)) with (map (fun a => x_name (norm_axis g a)) (r4_axes r)). rewrite <- map_map. apply Hh; sits.
      + cbn [length]. rewrite map_length. lia.
      + rewrite (D _). destruct r as [? ? [|? ?] ? ? ? ? ? ?]; reflexivity.
    - exists 2%Z, 0%nat, (items2110 (norm2110 g r)). split; [eapply C14_roundtrip_2110; eauto|]. intros obj n D.
      assert (Hh : has obj (read_items n ++ items2110 (norm2110 g r))).
      { apply is_dict_has; [|exact D]. destruct r as [? ? [|? ?] ? ? ? ? ?]; nodup. }
      unfold items2110 in Hh. cbn [norm2110 r5_common r5_vars r5_aux r5_dx r5_xname] in Hh.
      apply shows_aux; auto; [part Hh|part Hh|apply Hh; sits|].
      rewrite (D _). destruct r as [? ? [|? ?] ? ? ? ? ?]; reflexivity.
    - exists 2%Z, (length (r6_caux r)), (items2160 (norm2160 g r)). split.
      { eapply C15_roundtrip_2160; eauto. unfold attr in J. destruct (d kIGN) as [v|]; [|now left]. destruct J as [-> | ->]; auto. }
      intros obj n D. assert (Hh : has obj (read_items n ++ items2160 (norm2160 g r))) by (apply is_dict_has; [nodup|exact D]). unfold items2160 in Hh. cbn [norm2160 r6_common r6_vars r6_aux r6_caux r6_dx r6_xname] in Hh.
      assert (Hc : r6_caux r <> []) by (hnf in K; tauto).
      assert (V : has obj (var_items (map norm_var (r6_vars r)))) by part Hh.
      split.
      + part Hh.
      + reflexivity.
      + rewrite (V kNV _ (or_introl eq_refl)). unfold len_pv. now rewrite !map_length.
      + rewrite (V kVSCAL _ (or_intror (or_introl eq_refl))). unfold nums_pv. now rewrite !map_map.
      + rewrite (V kVMISS _ (or_intror (or_intror (or_introl eq_refl)))). unfold nums_pv. now rewrite !map_map.
      + rewrite (V kVNAME _ (or_intror (or_intror (or_intror (or_introl eq_refl))))). unfold strs_pv. now rewrite !map_map.
      + apply Hh; sits.
      + left. erewrite (Hh kNAUXV) by (sits). unfold len_pv. now rewrite app_length, !map_length.
      + destruct (r6_caux r) as [|a l] eqn:E; [now destruct Hc|]. cbn [length]. erewrite (Hh kNAUXC) by (sits). reflexivity.
      + intros _. eexists. split; [apply Hh; rewrite !in_app_iff; cbn [In]; right; right; right; right; right; left; reflexivity|].
        split; [|split].
        * unfold nums_pv. rewrite map_app, !map_map. f_equal. clear. induction (r6_caux r) as [|a l IH]; [reflexivity|]. cbn [map length repeat]. now f_equal.
        * erewrite (Hh kAMISS) by (sits). now rewrite map_app, !map_map.
        * erewrite (Hh kANAME) by (sits). unfold strs_pv. now rewrite !map_app, !map_map.
    - exists 2%Z, 0%nat, (items2310 (norm2310 g r)). split; [eapply C16_roundtrip_2310_partial; eauto|]. intros obj n D.
      assert (Hh : has obj (read_items n ++ items2310 (norm2310 g r))).
      { apply is_dict_has; [|exact D]. destruct r as [? ? [|? ?] ? ? ? ? ? ?]; nodup. }
      unfold items2310 in Hh. cbn [norm2310 r7_common r7_var r7_aux r7_dx r7_xname] in Hh.
      change [var_meta (r7_var r)] with (map (var_meta (num:=num)) [r7_var r]).
      apply shows_aux; auto; [part Hh|part Hh|apply Hh; sits|].
      rewrite (D _). destruct r as [? ? [|? ?] ? ? ? ? ? ?]; reflexivity. }
  destruct G as (niv & nc & items & CB & Sh). destruct (CB h) as (file & hdr & d2 & Ew & data & obj & Ef & Er & D).
  exists file, hdr, data, d2, obj. split; [exact Ew|]. split; [exact Ef|]. split; [exact Er|].
  eapply shows_tells; eauto.
Qed.
End Main.

(** Item access: the 35 names of dictionary items give the attributes; any other
    name gives a message with the name, unless it is the name of something else
    that the object has. *)
Theorem C113_items : forall num (obj : na num) other,
  (forall k, getitem other obj (key_text k) = Value (attr obj k)) /\
  (forall k k', key_text k = key_text k' -> k = k') /\
  (forall name, (forall k, name <> key_text k) -> other name = false ->
     getitem other obj name = Value (PStr (lit "Item '" ++ name ++ lit "' not found."))) /\
  (forall name, (forall k, name <> key_text k) -> other name = true -> getitem other obj name = Other name).
Proof.
  intros num obj other.
  assert (No : forall name, (forall k, name <> key_text k) -> find (fun k => str_eqb (key_text k) name) all_keys = None).
  { intros name K. destruct (find _ all_keys) as [k|] eqn:E; [|reflexivity]. apply find_some in E as [_ E].
    apply str_eqb_eq in E. now destruct (K k). }
  split; [|split; [|split]].
  - intros k. unfold getitem. destruct k; reflexivity.
  - intros k k' E. apply str_eqb_eq in E. revert E. destruct k, k'; (reflexivity || (intros E; discriminate E)).
  - intros name K O. unfold getitem. now rewrite No, O.
  - intros name K O. unfold getitem. now rewrite No, O.
Qed.

(** A file of FFI 2160 as it is written, and what the object tells. *)
Example C113_example : let d := dict_of (items2160 s2160) in
  (exists cm vs aux xs, well_formed (fun x => x) d C2160 2160 cm vs aux xs /\ length aux = 2%nat) /\
  plain_opts opts_whole (fun x => x) /\ attr d kNLHEAD = PInt 17 /\
  match read_file (num:=whole) (w_file (snd (write_body opts_whole C2160 false (mkW [] [] d)))) 0 with
  | Ok (_, obj) => getNumHeaderLines obj = PInt 29 /\ getFFI obj = PInt 2160 /\
      getVolumes obj = (PInt 1, PInt 2) /\ getOrg obj = attr d kORG /\
      getitem (fun _ => false) obj (lit "NAUXC") = Value (PInt 1) /\
      getitem (fun _ => false) obj (lit "NAUX") = Value (PStr (lit "Item 'NAUX' not found.")) /\
      getVariables None obj = Ok [mkInfo (lit "temp") (Some (lit "K")) (pv (fl 9999)) (pv (fl 1))] /\
      getIndependentVariables None obj = Ok [(lit "station", None); (lit "height", Some (lit "m"))] /\
      match getAuxVariables None obj with
      | Ok [a; b] => (i_name b, i_units b, i_miss b, i_scale b) = (lit "site", None, PStr (lit "zzz"), PNone) /\ i_scale a <> PNone
      | _ => False
      end
  | Err _ => False
  end.
Proof.
  cbv zeta. split; [|split; [apply plain_whole|split; [reflexivity|]]].
  - exists (r6_common s2160), (map var_meta (r6_vars s2160)), (map var_meta (r6_aux s2160) ++ map cvar_meta (r6_caux s2160)),
      [fst (r6_xname s2160); snd (r6_xname s2160)].
    split; [|reflexivity]. apply WF2160; [apply s2160_ok|apply dict_of_has; nodup|right; reflexivity].
  - vm_compute. repeat split; try discriminate.
Qed.

Print Assumptions C113_getters.
Print Assumptions C113_items.
