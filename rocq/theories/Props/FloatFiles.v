(** C119: files of real floating point numbers in all formats. *)
From Coq Require Import List NArith ZArith Bool Lia Floats.SpecFloat.
From Verif Require Import Py.Str Py.Res Py.Num Model.Dict Model.CommonUtils Model.NAWrite Model.NARead Spec.TextSpec Spec.Records
  Spec.RoundTripSpec Spec.IgnoredSpec Spec.RecordSamples Spec.Samples Spec.Binary64 Spec.Float64 Proofs.StrLemmas Proofs.RT6 Proofs.SampleOk Props.RoundTrip Props.FloatProps.
Import ListNotations.
Local Open Scope Z_scope.

(** With the default delimiter and float format: a well-formed dictionary of
    doubles and ints comes back from the file; header numbers are the same, data
    values are what reading ten digits gives ([f_reread], see C112). *)
Theorem C119_files_partial : forall (d : na f64) nlh, attr d kNLHEAD = PInt nlh ->
  (forall r, ok1001 r -> has d (items1001 r) -> comes_back opts_f64 C1001 d (items1001 (norm1001 f_reread r))) /\
  (forall r, ok1010 r -> has d (items1010 r) -> comes_back opts_f64 C1010 d (items1010 (norm1010 f_reread r))) /\
  (forall r, ok1020 r -> has d (items1020 r) -> comes_back opts_f64 C1020 d (items1020 (norm1020 f_reread r))) /\
  (forall r c, (length (r4_nx r) = 1%nat /\ c = C2010 \/ length (r4_nx r) = 2%nat /\ c = C3010 \/ length (r4_nx r) = 3%nat /\ c = C4010) ->
     rev (map (fun a => length (x_def a)) (r4_axes r)) = map (fun a => length (x_def a)) (r4_axes r) ->
     ok2010 r -> has d (items2010 r) -> comes_back opts_f64 c d (items2010 (norm2010 f_reread r))) /\
  (forall r, ok2110 f_reread r -> has d (items2110 r) -> comes_back opts_f64 C2110 d (items2110 (norm2110 f_reread r))) /\
  (forall r texts, ok2160 f_reread r -> has d (items2160 r) -> attr d kIGN = strs_pv texts -> Forall name_ok texts ->
     comes_back_behind opts_f64 C2160 d texts (items2160 (norm2160 f_reread r))) /\
  (forall r, ok2310 f_reread r -> has d (items2310 r) -> comes_back opts_f64 C2310 d (items2310 (norm2310 f_reread r))).
Proof.
  intros d nlh Hn. pose proof C111_floats_fulfil_the_laws as L.
  split; [intros; eapply C09_roundtrip_1001; eauto|]. split; [intros; eapply C10_roundtrip_1010; eauto|]. split; [intros; eapply C11_roundtrip_1020; eauto|].
  split. { intros r c [[E ->] | Hc] Hp Ho Hd; [eapply C12_roundtrip_2010; eauto|eapply C13_roundtrip_3010_4010_partial; eauto]. }
  split; [intros; eapply C14_roundtrip_2110; eauto|]. split; [intros; eapply C15_lines_2160; eauto|]. intros; eapply C16_roundtrip_2310_partial; eauto.
Qed.
Definition g_floats : r2010 f64 := mk2010 sample_common [Records.mkVar (fn "0.1") (fn "-9999.99") (lit "temp (K)")] [Records.mkVar (NI 1) (fn "1e-320") (lit "aux")]
  (fn "0.1") (lit "lat (deg)") [2]%nat [mkAxis (fn "0.30000000000000004") (map fn ["0.1"; "3.141592653589793"]%pylit) (lit "lon (deg)")]
  (map fn ["0.1"; "0.2"]%pylit) [map fn ["1e300"; "inf"]%pylit] [[map fn ["288.15"; "-9999.99"]%pylit; [fn "-1e-320"; NI 7]]].
Lemma g_floats_ok : ok2010 g_floats.
Proof. split; [apply common_sample_ok |]. cbn [g_floats r4_vars r4_aux r4_xname r4_nx r4_axes r4_a r4_v r4_x map length]. cbn. ok. Qed.
Definition dg_floats : na f64 := of_list ((kNLHEAD, PInt 17) :: items2010 g_floats).
Example C119_example : comes_back opts_f64 C2010 dg_floats (items2010 (norm2010 f_reread g_floats)).
Proof.
  apply (C119_files_partial dg_floats 17 eq_refl); [auto|reflexivity|apply g_floats_ok|].
  assert (K : has dg_floats ((kNLHEAD, PInt 17) :: items2010 g_floats)) by (apply RT6.is_dict_has; [nodup | intros k; reflexivity]).
  intros k v Hi. apply K. now right.
Qed.
(** The listed values of the axis come back with ten digits, the step exactly. *)
Example C119_values : map (fun n => match n with NF x => b_repr (f_val x) | NI z => dec_of_Z z end)
    (flat_map (fun a => x_dx a :: x_def a) (r4_axes (norm2010 f_reread g_floats))) = map lit ["0.30000000000000004"; "0.1"; "3.141592654"]%pylit.
Proof. vm_compute. reflexivity. Qed.

Local Existing Instance POps.
(** Writing what was read gives the same file, for all floats that do not become
    infinite. *)
Theorem C119_same_files_partial : forall (d : na p64) nlh, attr d kNLHEAD = PInt nlh ->
  (forall r, ok1001 r -> floats1001 r -> has d (items1001 r) -> same_again (H := POps) opts_p64 C1001 d) /\
  (forall r, ok1010 r -> floats1010 r -> has d (items1010 r) -> same_again (H := POps) opts_p64 C1010 d) /\
  (forall r, ok1020 r -> floats1020 r -> has d (items1020 r) -> same_again (H := POps) opts_p64 C1020 d) /\
  (forall r c, (length (r4_nx r) = 1%nat /\ c = C2010 \/ length (r4_nx r) = 2%nat /\ c = C3010 \/ length (r4_nx r) = 3%nat /\ c = C4010) ->
     rev (map (fun a => length (x_def a)) (r4_axes r)) = map (fun a => length (x_def a)) (r4_axes r) ->
     ok2010 r -> floats2010 r -> has d (items2010 r) -> same_again (H := POps) opts_p64 c d) /\
  (forall r, ok2110 p_reread r -> floats2110 r -> has d (items2110 r) -> same_again (H := POps) opts_p64 C2110 d) /\
  (forall r texts, ok2160 p_reread r -> floats2160 r -> has d (items2160 r) -> attr d kIGN = strs_pv texts -> Forall name_ok texts ->
     same_behind (H := POps) opts_p64 (length texts) C2160 d) /\
  (forall r, ok2310 p_reread r -> floats2310 r -> has d (items2310 r) -> same_again (H := POps) opts_p64 C2310 d).
Proof.
  intros d nlh Hn. destruct (C17_same_again_partial p64 POps opts_p64 p_reread d nlh C112_same_text Hn) as (K1 & K2 & K3 & K4 & K5 & _ & K6 & K7). tauto.
Qed.
Definition pn (s : pylit) : number p64 := NF (p_of (bf s)).
Arguments pn _%pylit.
Definition g_printed : r2010 p64 := mk2010 sample_common [Records.mkVar (pn "0.1") (pn "-9999.99") (lit "temp (K)")] [Records.mkVar (pn "1") (pn "1e-320") (lit "aux")]
  (pn "0.1") (lit "lat (deg)") [2]%nat [mkAxis (pn "0.30000000000000004") (map pn ["0.1"; "3.141592653589793"]%pylit) (lit "lon (deg)")]
  (map pn ["0.1"; "0.2"]%pylit) [map pn ["1e300"; "inf"]%pylit] [[map pn ["288.15"; "-9999.99"]%pylit; map pn ["-1e-320"; "7"]%pylit]].
Definition dg_printed : na p64 := of_list ((kNLHEAD, PInt 17) :: items2010 g_printed).
Example C119_same_example : same_again (H := POps) opts_p64 C2010 dg_printed.
Proof.
  apply (C119_same_files_partial dg_printed 17 eq_refl) with (r := g_printed); [auto|reflexivity| | |].
  - split; [apply common_sample_ok |]. cbn [g_printed r4_vars r4_aux r4_xname r4_nx r4_axes r4_a r4_v r4_x map length]. cbn. ok.
  - split; [apply sample_read|]. cbn. unfold RoundTripSpec.is_float. repeat (constructor; eauto); eexists; reflexivity.
  - assert (K : has dg_printed ((kNLHEAD, PInt 17) :: items2010 g_printed)) by (apply RT6.is_dict_has; [nodup | intros k; reflexivity]).
    intros k v Hi. apply K. now right.
Qed.
Print Assumptions C119_files_partial.
Print Assumptions C119_same_files_partial.
