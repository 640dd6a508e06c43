(** Properties C111 and C112: real floating point numbers (IEEE 754 binary64)
    through the text of a file.

    Header numbers are printed with str() and read with float(); data values
    are printed with the float format, "%.10g" by default (nappy/na_file/na_file.py:
    28, 94-104; the readers use float through nappy/utils/text_parser.py: 36-60).
    [b_repr], [fmt_g] and [b_parse] of Spec/Binary64.v model str(), "%.<p>g" and
    float(); this file shows that they fulfil the laws [str_law] and [fmt_law]
    which the round trip theorems ask for, so that these theorems hold of real
    floats and the default format. *)
From Coq Require Import List NArith ZArith QArith Bool Lia Floats.SpecFloat Eqdep_dec.
From Verif Require Import Py.Str Py.Res Py.Num Model.Dict Model.CommonUtils Model.NAWrite Model.NARead Spec.TextSpec Spec.Records
  Spec.RoundTripSpec Spec.RecordSamples Spec.Samples Spec.Binary64 Spec.Float64 Proofs.StrLemmas Proofs.RT6 Proofs.SampleOk
  Proofs.FloatRound Proofs.FloatDec Proofs.FloatValid Proofs.FloatPrint Proofs.FloatStable Proofs.FloatAcc Props.RoundTrip.
Import ListNotations.
Local Open Scope Z_scope.

(** * C111: str() and float() *)
(** Every float - normal, subnormal, zero of either sign, infinity or nan - is
    printed by str() as one token which float() reads as the same float. *)
Theorem C111_str_reads_back : forall x, is_float x -> token_ok (b_repr x) /\ b_parse (b_repr x) = Some x.
Proof. intros x H. exact (repr_back x H). Qed.
(** An int is read as the float nearest to it. *)
Theorem C111_ints_read : forall z, b_parse (dec_of_Z z) = Some (b_of_Z z).
Proof. exact int_back. Qed.
(** Whatever float() accepts, it gives a float. *)
Theorem C111_reading_gives_floats : forall s x, b_parse s = Some x -> is_float x.
Proof. intros s x H. exact (parse_valid s x H). Qed.

Lemma f_val_of x : is_float x -> f_val (f_of x) = x.
Proof. intros H. unfold f_of. destruct (Bool.bool_dec _ true) as [p | p]; [reflexivity | contradiction]. Qed.
Lemma f_of_val x : f_of (f_val x) = x.
Proof.
  destruct x as [x p]. unfold f_of. cbn [f_val proj1_sig]. destruct (Bool.bool_dec _ true) as [p' | p']; [| contradiction].
  f_equal. apply UIP_dec. apply Bool.bool_dec.
Qed.
(** The instance [f64] does not lose anything. *)
Lemma f_parse_val s : option_map f_val (num_parse (num:=f64) s) = b_parse s.
Proof. cbn [num_parse FOps]. destruct (b_parse s) as [x |] eqn:E; [| reflexivity]. cbn [option_map]. f_equal. apply f_val_of. exact (parse_valid s x E). Qed.
Lemma f_plus_val (x y : f64) : f_val (Arith.num_plus x y) = Arith.num_plus (f_val x) (f_val y).
Proof. apply f_val_of. exact (add_valid _ _ (proj2_sig x) (proj2_sig y)). Qed.
Lemma f_minus_val (x y : f64) : f_val (Arith.num_minus x y) = Arith.num_minus (f_val x) (f_val y).
Proof. apply f_val_of. exact (sub_valid _ _ (proj2_sig x) (proj2_sig y)). Qed.
Lemma f_times_val (x y : f64) : f_val (Arith.num_times x y) = Arith.num_times (f_val x) (f_val y).
Proof. apply f_val_of. exact (mul_valid _ _ (proj2_sig x) (proj2_sig y)). Qed.

(** The laws that the round trip theorems ask for hold of all floats with the
    default options. *)
Theorem C111_floats_fulfil_the_laws : plain_opts opts_f64 f_reread.
Proof.
  split; [reflexivity |]. split; [apply delim4 |]. split; [split |].
  - intros x. destruct (repr_back (f_val x) (proj2_sig x)) as (T & P). split; [exact T |]. cbn [num_parse FOps num_str]. rewrite P. cbn [option_map]. now rewrite f_of_val.
  - intros z. cbn [num_parse FOps]. rewrite int_back. reflexivity.
  - intros x. cbn [o_fmt opts_f64]. destruct (fmt_back 10 (f_val x) ltac:(lia) (proj2_sig x)) as (T & P). split; [exact T |].
    cbn [num_parse FOps]. rewrite P. cbn [option_map]. unfold f_reread, reread. rewrite P. reflexivity.
Qed.
(** One instance of the round trips: FFI 1001. *)
Theorem C111_file_1001 : forall (r : r1001 f64) (d : na f64) nlh,
  ok1001 r -> has d (items1001 r) -> attr d kNLHEAD = PInt nlh ->
  comes_back opts_f64 C1001 d (items1001 (norm1001 f_reread r)).
Proof. intros. eapply C09_roundtrip_1001; eauto. apply C111_floats_fulfil_the_laws. Qed.

(** * C112: the float format *)
(** "%.<p>g" prints one token; float() reads it as the float nearest to a
    decimal number of [p] digits which is within half a unit of its last digit
    of the number printed.  Zeros, infinities and nan come back. *)
Theorem C112_digits_partial : forall p x, 1 <= p -> is_float x ->
  token_ok (fmt_g p x) /\ exists y, b_parse (fmt_g p x) = Some y /\ is_float y /\
  match x with
  | S754_finite s m e => exists q t, rounded p q t (value m e) /\ y = b_of_dec s q t
  | _ => y = x
  end.
Proof.
  intros p x Hp V. destruct (fmt_back p x Hp V) as (T & P). split; [exact T |]. exists (g_read p x). split; [exact P |].
  split; [exact (g_read_valid p x V) |]. destruct x as [s | s | | s m e]; try reflexivity. cbn [g_read].
  pose proof (digits_near p m e Hp V) as D. destruct (frac_of m e) as [n d]. destruct (round_to p n d) as [q k]. eauto.
Qed.
(** 17 digits are enough for any float to come back. *)
Theorem C112_seventeen_digits : forall x, is_float x -> b_parse (fmt_g 17 x) = Some x.
Proof.
  intros x V. destruct (fmt_back 17 x ltac:(lia) V) as (_ & ->). f_equal. destruct x as [s | s | | s m e]; try reflexivity. cbn [g_read].
  pose proof (digits_17 s m e V) as D. destruct (frac_of m e) as [n d]. destruct (round_to 17 n d) as [q k]. apply D.
Qed.
Lemma reread_g x : is_float x -> reread x = g_read 10 x.
Proof. intros V. unfold reread. destruct (fmt_back 10 x ltac:(lia) V) as (_ & ->). reflexivity. Qed.
(** Ten digits settle: what was read from the text of a number is printed as
    this text again, unless a number next to the largest float was read as an
    infinity. *)
Theorem C112_settles_partial : forall x y, is_float x -> b_parse (fmt_g 10 x) = Some y -> infinite x = true \/ infinite y = false ->
  fmt_g 10 y = fmt_g 10 x /\ b_parse (fmt_g 10 y) = Some y.
Proof.
  intros x y V P I. destruct (fmt_back 10 x ltac:(lia) V) as (_ & P'). assert (y = g_read 10 x) as -> by congruence.
  assert (S : fmt_g 10 (g_read 10 x) = fmt_g 10 x).
  { destruct I as [I | I].
    - destruct x; try discriminate I. reflexivity.
    - apply fmt_stable_10; [exact V |]. intros s E. rewrite E in I. discriminate I. }
  split; [exact S |]. now rewrite S.
Qed.
(** The largest floats do not survive: 1.7976931348623157e308 is written as
    1.797693135e+308, which is read as an infinity. *)
Theorem C112_largest_refuted : exists x y, is_float x /\ infinite x = false /\
  x = S754_finite false 9007199254740991 971 /\ fmt_g 10 x = lit "1.797693135e+308" /\
  b_parse (fmt_g 10 x) = Some y /\ infinite y = true /\ fmt_g 10 y = lit "inf".
Proof. exists (S754_finite false 9007199254740991 971), (S754_infinity false). repeat split; vm_compute; reflexivity. Qed.

Lemma p_valid x : prints x = true -> is_float x. Proof. unfold prints. rewrite andb_true_iff. tauto. Qed.
Lemma p_val_of x : prints x = true -> p_val (p_of x) = x.
Proof. intros H. unfold p_of. destruct (Bool.bool_dec _ true) as [p | p]; [reflexivity | contradiction]. Qed.
Lemma p_of_val x : p_of (p_val x) = x.
Proof.
  destruct x as [x p]. unfold p_of. cbn [p_val proj1_sig]. destruct (Bool.bool_dec _ true) as [p' | p']; [| contradiction].
  f_equal. apply UIP_dec. apply Bool.bool_dec.
Qed.
Lemma reread_prints x : prints x = true -> prints (reread x) = true /\ fmt_g 10 (reread x) = fmt_g 10 x.
Proof.
  intros H. pose proof (p_valid x H) as V. unfold prints in H. apply andb_true_iff in H as (_ & H).
  destruct (fmt_back 10 x ltac:(lia) V) as (_ & P). rewrite (reread_g x V) in *.
  assert (I : infinite x = true \/ infinite (g_read 10 x) = false) by (apply orb_true_iff in H as [H | H]; [now left | right; now apply negb_true_iff]).
  destruct (C112_settles_partial x _ V P I) as (S & P'). split; [| exact S]. unfold prints. apply andb_true_iff. split; [exact (g_read_valid 10 x V) |].
  unfold reread. rewrite P'. destruct (infinite (g_read 10 x)); reflexivity.
Qed.
(** So the laws of the theorems on writing again hold of all floats but these. *)
Theorem C112_same_text : stable_opts (H := POps) opts_p64 p_reread.
Proof.
  split; [split; [reflexivity |]; split; [apply delim4 |]; split; [split |] |].
  - intros x. pose proof (p_valid _ (proj2_sig x)) as V. destruct (repr_back (p_val x) V) as (T & P). split; [exact T |]. cbn [num_parse POps num_str]. rewrite P. cbn [option_map]. now rewrite p_of_val.
  - intros z. cbn [num_parse POps]. rewrite int_back. reflexivity.
  - intros x. cbn [o_fmt opts_p64]. pose proof (p_valid _ (proj2_sig x)) as V. destruct (fmt_back 10 (p_val x) ltac:(lia) V) as (T & P). split; [exact T |].
    cbn [num_parse POps]. rewrite P. cbn [option_map]. unfold p_reread, reread. rewrite P. reflexivity.
  - intros x. cbn [o_fmt opts_p64]. unfold p_reread. destruct (reread_prints (p_val x) (proj2_sig x)) as (A & B). rewrite (p_val_of _ A). exact B.
Qed.
(** Writing, reading and writing again gives the same file (C17), here for FFI
    1001 and all floats that do not become infinite. *)
Theorem C112_same_file_1001 : forall (r : r1001 p64) (d : na p64) nlh,
  ok1001 r -> floats1001 r -> has d (items1001 r) -> attr d kNLHEAD = PInt nlh -> same_again (H := POps) opts_p64 C1001 d.
Proof.
  intros r d nlh Hr Hf Hd Hn. destruct (C17_same_again_partial p64 POps opts_p64 p_reread d nlh C112_same_text Hn) as (K & _). exact (K r Hr Hf Hd).
Qed.

(** ** Examples *)
Example C111_example : is_float (bf "0.1") /\ b_repr (bf "0.1") = lit "0.1" /\
  map (fun s => option_map b_repr (b_parse (lit s))) ["-1e-20"; "0.30000000000000004"; "-0.0"; "nan"; "-inf"; "123456789012345678"]%pylit
  = map (fun s => Some (lit s)) ["-1e-20"; "0.30000000000000004"; "-0.0"; "nan"; "-inf"; "1.2345678901234568e+17"]%pylit.
Proof. repeat split; vm_compute; reflexivity. Qed.
Definition fn (s : pylit) : number f64 := NF (ff s).
Arguments fn _%pylit.
(** Tenths, a subnormal number, an infinity, 17 digits. *)
Definition r_floats : r1001 f64 :=
  mk1001 sample_common [Records.mkVar (fn "0.1") (fn "-9999.99") (lit "temp (K)"); Records.mkVar (NI 1) (fn "1e-320") (lit "pressure (hPa)")] (fn "0.1") (lit "time (s)")
    [fn "0.1"; fn "0.2"; fn "0.30000000000000004"] [[fn "288.15"; fn "-9999.99"; fn "3.141592653589793"]; [fn "inf"; fn "-1e-30"; NI 7]].
Lemma r_floats_ok : ok1001 r_floats.
Proof. split; [apply common_sample_ok |]. cbn [r_floats r1_vars r1_xname r1_x r1_v]. ok. Qed.
Definition d_floats : na f64 := of_list ((kNLHEAD, PInt 17) :: items1001 r_floats).
Lemma d_floats_has : has d_floats (items1001 r_floats).
Proof.
  assert (K : has d_floats ((kNLHEAD, PInt 17) :: items1001 r_floats)) by (apply RT6.is_dict_has; [nodup | intros k; reflexivity]).
  intros k v Hi. apply K. now right.
Qed.
Example C111_file_example : comes_back opts_f64 C1001 d_floats (items1001 (norm1001 f_reread r_floats)).
Proof. apply (C111_file_1001 r_floats _ 17); [apply r_floats_ok | apply d_floats_has | reflexivity]. Qed.
(** The scale factor 0.1 comes back exactly, the data with ten digits. *)
Example C111_file_values :
  map (fun n => match n with NF x => b_repr (f_val x) | NI z => dec_of_Z z end) (map Records.v_scal (r1_vars (norm1001 f_reread r_floats)) ++ concat (r1_v (norm1001 f_reread r_floats)))
  = map lit ["0.1"; "1.0"; "288.15"; "-9999.99"; "3.141592654"; "inf"; "-1e-30"; "7.0"]%pylit.
Proof. vm_compute. reflexivity. Qed.
Example C112_example : map (fun s => fmt_g 10 (bf s)) ["3.141592653589793"; "0.30000000000000004"; "1e30"; "-2.5e-31"]%pylit
  = map lit ["3.141592654"; "0.3"; "1e+30"; "-2.5e-31"]%pylit /\
  infinite (reread (bf "1.797693134e308")) = false /\ infinite (reread (bf "1.7976931349e308")) = true.
Proof. repeat split; vm_compute; reflexivity. Qed.

Print Assumptions C111_str_reads_back.
Print Assumptions C111_ints_read.
Print Assumptions C111_reading_gives_floats.
Print Assumptions C111_floats_fulfil_the_laws.
Print Assumptions C111_file_1001.
Print Assumptions C112_digits_partial.
Print Assumptions C112_seventeen_digits.
Print Assumptions C112_settles_partial.
Print Assumptions C112_largest_refuted.
Print Assumptions C112_same_text.
Print Assumptions C112_same_file_1001.
