(** C119 for FFI 3010 and 4010: exactly which files of real floating point numbers
    come back. *)
From Coq Require Import List NArith ZArith Bool Lia Floats.SpecFloat.
From Verif Require Import Py.Str Py.Res Py.Num Model.Dict Model.CommonUtils Model.NAWrite Model.NARead Spec.TextSpec Spec.Records
  Spec.RoundTripSpec Spec.RecordSamples Spec.Samples Spec.Binary64 Spec.Float64 Proofs.StrLemmas Proofs.RT6 Proofs.SampleOk Props.RoundTrip Props.FloatProps
  Props.GridExact.
Import ListNotations.

Theorem C119_exact_partial : forall (d : na f64) nlh r c, attr d kNLHEAD = PInt nlh ->
  (length (r4_nx r) = 2%nat /\ c = C3010 \/ length (r4_nx r) = 3%nat /\ c = C4010) -> ok2010 r -> has d (items2010 r) ->
  comes_back opts_f64 c d (items2010 (norm2010 f_reread r)) <->
  rev (map (fun a => length (x_def a)) (r4_axes r)) = map (fun a => length (x_def a)) (r4_axes r).
Proof. intros d nlh r c Hn Hc Hr Hd. eapply C13_exact_partial; eauto. exact C111_floats_fulfil_the_laws. Qed.

(** One listed latitude and two listed longitudes. *)
Definition h_floats : r2010 f64 := mk2010 sample_common [Records.mkVar (fn "0.1") (fn "-9999.99") (lit "temp (K)")] []
  (fn "0.1") (lit "time") [2; 2]%nat [mkAxis (fn "0.5") (map fn ["0.1"]%pylit) (lit "lat (deg)"); mkAxis (fn "0") (map fn ["0.1"; "3.141592653589793"]%pylit) (lit "lon (deg)")]
  (map fn ["0.1"]%pylit) [] [[[map fn ["288.15"; "-9999.99"]%pylit; [fn "-1e-320"; NI 7]]]].
Lemma h_floats_ok : ok2010 h_floats.
Proof. split; [apply common_sample_ok |]. cbn [h_floats r4_vars r4_aux r4_xname r4_nx r4_axes r4_a r4_v r4_x map length]. cbn. ok. Qed.
Definition dh_floats : na f64 := of_list ((kNLHEAD, PInt 17) :: items2010 h_floats).
Lemma dh_floats_has : has dh_floats (items2010 h_floats).
Proof.
  assert (K : has dh_floats ((kNLHEAD, PInt 17) :: items2010 h_floats)) by (apply RT6.is_dict_has; [nodup | intros k; reflexivity]).
  intros k v Hi. apply K. now right.
Qed.
Theorem C119_refuted : exists (d : na f64) (r : r2010 f64), attr d kNLHEAD = PInt 17 /\ length (r4_nx r) = 2%nat /\ ok2010 r /\ has d (items2010 r) /\
  ~ comes_back opts_f64 C3010 d (items2010 (norm2010 f_reread r)).
Proof.
  exists dh_floats, h_floats. split; [reflexivity |]. split; [reflexivity |]. split; [exact h_floats_ok |]. split; [exact dh_floats_has |].
  rewrite (C119_exact_partial dh_floats 17 h_floats C3010 eq_refl (or_introl (conj eq_refl eq_refl)) h_floats_ok dh_floats_has). vm_compute. discriminate.
Qed.
Print Assumptions C119_exact_partial.
Print Assumptions C119_refuted.
