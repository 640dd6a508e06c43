(** C120: numerals of few digits in a file are kept when the file is read and
    written again.

    Data are read with float() (nappy/utils/text_parser.py:36-60) and written with
    "%.10g" (nappy/na_file/na_file.py:28, 94-104); header numbers are written with
    str(). *)
From Coq Require Import List NArith ZArith QArith Qpower Qabs Bool Lia Floats.SpecFloat.
From Verif Require Import Py.Str Py.Res Py.Num Model.Dict Model.CommonUtils Model.NAWrite Model.NARead Spec.TextSpec Spec.Records
  Spec.RoundTripSpec Spec.RecordSamples Spec.Samples Spec.Binary64 Spec.Float64 Spec.DecimalSpec Proofs.FloatRound Proofs.FloatDec Proofs.FloatText
  Proofs.FloatValid Proofs.FloatPrint Proofs.FloatStable Proofs.FloatShort Proofs.FloatNumeral
  Proofs.RT6 Proofs.SampleOk Props.RoundTrip Props.FloatProps Props.FloatFiles.
Import ListNotations.

Lemma denotes_eq w u v : denotes w u -> u == v -> denotes w v.
Proof. intros H E. destruct H. apply Denotes; [assumption|assumption|]. rewrite <- E. assumption. Qed.
Lemma zero_kept w v : denotes w v -> v == 0 -> exists s, b_parse w = Some (S754_zero s).
Proof.
  intros H E. destruct (denotes_parse w v H) as (s & D & u & HD & Ev & P). exists s. rewrite P. f_equal.
  destruct D as [| D | D]; [reflexivity | exfalso | reflexivity]. rewrite E in Ev. symmetry in Ev.
  apply Qmult_integral in Ev as [Ev | Ev]; [apply Qmult_integral in Ev as [Ev | Ev]; [destruct s; discriminate Ev | discriminate Ev]|].
  pose proof (ten_pow_pos u) as Q. rewrite Ev in Q. discriminate Q.
Qed.

(** A data value of at most ten digits: the numeral that is written is the
    same number. *)
Theorem C120_data_partial : forall w v x, denotes w v -> few_digits 10 v -> v == 0 \/ 10 ^ (-300) <= Qabs v ->
  b_parse w = Some x -> infinite x = false -> denotes (fmt_g 10 x) v /\ b_parse (fmt_g 10 x) = Some x.
Proof.
  intros w v x Dn Fd [E | L] P I.
  - destruct (zero_kept w v Dn E) as (s & P'). assert (x = S754_zero s) as -> by congruence. split; [| destruct s; reflexivity].
    apply (Denotes s (lit "0") None None v); [discriminate | reflexivity | rewrite E; destruct s; reflexivity].
  - destruct (numeral_digits 10 w v ltac:(lia) Dn Fd L) as (s & q & t & Hq & Ht & Ev & P'). assert (Ex : x = b_of_dec s (Zpos q) t) by congruence.
    destruct (digits_kept 10 s q t ltac:(lia) Hq ltac:(lia)) as [(s' & Q) | (m & e & Q & Bd & R)]; [rewrite Ex, Q in I; discriminate I |].
    rewrite Ex, Q. cbn [fmt_g]. rewrite frac_pw, R. split.
    + eapply denotes_eq; [apply shown_denotes; [lia | exact Hq] |]. replace (t + 10 - 1 - 10 + 1)%Z with t by lia. symmetry. exact Ev.
    + destruct (shown s (Zpos q) 10 (t + 10 - 1) 10 false ltac:(lia) Hq) as (_ & ->). replace (t + 10 - 1 - 10 + 1)%Z with t by lia. now rewrite Q.
Qed.
(** A header number of at most fifteen digits. *)
Theorem C120_header_partial : forall w v x, denotes w v -> few_digits 15 v -> v == 0 \/ 10 ^ (-300) <= Qabs v ->
  b_parse w = Some x -> infinite x = false -> denotes (b_repr x) v /\ b_parse (b_repr x) = Some x.
Proof.
  intros w v x Dn Fd [E | L] P I.
  - destruct (zero_kept w v Dn E) as (s & P'). assert (x = S754_zero s) as -> by congruence. split; [| destruct s; reflexivity].
    apply (Denotes s (lit "0") (Some (lit "0")) None v); [discriminate | reflexivity | rewrite E; destruct s; reflexivity].
  - destruct (numeral_digits 15 w v ltac:(lia) Dn Fd L) as (s & q & t & Hq & Ht & Ev & P'). assert (Ex : x = b_of_dec s (Zpos q) t) by congruence.
    destruct (digits_kept 15 s q t ltac:(lia) Hq ltac:(lia)) as [(s' & Q) | (m & e & Q & Bd & R)]; [rewrite Ex, Q in I; discriminate I |].
    rewrite Ex, Q. split; [| apply repr_back; exact Bd]. replace (t + 15 - 1)%Z with (t + 14)%Z in R by lia.
    destruct (repr_same s q t m e Hq Ht Q Bd R) as (q' & p' & k & -> & Hp' & Hq' & Eq).
    eapply denotes_eq; [apply shown_denotes; [exact Hp' | exact Hq'] |]. rewrite Ev, <- !Qmult_assoc, Eq. reflexivity.
Qed.
(** Next to zero there are too few floats: 1e-320 becomes 9.999888672e-321. *)
Theorem C120_refuted : exists w v x v', denotes w v /\ few_digits 10 v /\ b_parse w = Some x /\ infinite x = false /\
  denotes (fmt_g 10 x) v' /\ ~ v' == v.
Proof.
  exists (lit "1e-320"), (1 * 10 ^ (-320)), (bf "1e-320"), (inject_Z 9999888672 * 10 ^ (-330)).
  split; [apply (Denotes false (lit "1") None (Some (-320)%Z)); [discriminate | reflexivity | reflexivity] |].
  split; [exists 1%Z, (-320)%Z; split; [reflexivity | reflexivity] |].
  split; [reflexivity |]. split; [vm_compute; reflexivity |]. split; [| vm_compute; discriminate].
  replace (fmt_g 10 (bf "1e-320")) with (lit "9.999888672e-321") by (vm_compute; reflexivity).
  apply (Denotes false (lit "9") (Some (lit "999888672")) (Some (-321)%Z)); [discriminate | reflexivity | vm_compute; reflexivity].
Qed.

(** * Files *)
(** A number whose value is given by a numeral of at most ten digits. *)
Definition short (n : number f64) : Prop := exists w v, denotes w v /\ few_digits 10 v /\ (v == 0 \/ 10 ^ (-300) <= Qabs v) /\
  b_parse w = Some (f_val (val n)) /\ infinite (f_val (val n)) = false.
Lemma short_same n : short n -> data_num f_reread n = data_num (fun x => x) n.
Proof.
  intros (w & v & H1 & H2 & H3 & H4 & H5). destruct (C120_data_partial w v _ H1 H2 H3 H4 H5) as (_ & P). unfold data_num. f_equal.
  unfold f_reread, reread. rewrite P. apply f_of_val.
Qed.
Lemma map_same l : Forall short l -> map (data_num f_reread) l = map (data_num (fun x => x)) l.
Proof. intros H. apply map_ext_in. intros n I. apply short_same. rewrite Forall_forall in H. auto. Qed.
Lemma maps_same l : Forall (Forall short) l -> map (map (data_num f_reread)) l = map (map (data_num (fun x => x))) l.
Proof. intros H. apply map_ext_in. intros n I. apply map_same. rewrite Forall_forall in H. auto. Qed.
(** With the default options a well-formed dictionary of one independent variable
    whose values have at most ten digits comes back with the same values. *)
Theorem C120_files_partial : forall (d : na f64) nlh, attr d kNLHEAD = PInt nlh ->
  (forall r, ok1001 r -> Forall short (r1_x r) -> Forall (Forall short) (r1_v r) ->
     has d (items1001 r) -> comes_back opts_f64 C1001 d (items1001 (norm1001 (fun x => x) r))) /\
  (forall r, ok1010 r -> Forall short (r2_x r) -> Forall (Forall short) (r2_a r) -> Forall (Forall short) (r2_v r) ->
     has d (items1010 r) -> comes_back opts_f64 C1010 d (items1010 (norm1010 (fun x => x) r))) /\
  (forall r, ok1020 r -> Forall short (r3_x r) -> Forall (Forall short) (r3_a r) -> Forall (Forall short) (r3_v r) ->
     has d (items1020 r) -> comes_back opts_f64 C1020 d (items1020 (norm1020 (fun x => x) r))).
Proof.
  intros d nlh Hn. destruct (C119_files_partial d nlh Hn) as (K1 & K2 & K3 & _). split; [| split].
  - intros r Ho H1 H2 Hd. specialize (K1 r Ho Hd). unfold norm1001 in *. rewrite (map_same _ H1), (maps_same _ H2) in K1. exact K1.
  - intros r Ho H1 H2 H3 Hd. specialize (K2 r Ho Hd). unfold norm1010 in *. rewrite (map_same _ H1), (maps_same _ H2), (maps_same _ H3) in K2. exact K2.
  - intros r Ho H1 H2 H3 Hd. specialize (K3 r Ho Hd). unfold norm1020 in *. rewrite (map_same _ H1), (maps_same _ H2), (maps_same _ H3) in K3. exact K3.
Qed.

(** ** Examples *)
Example C120_example : denotes (lit "288.150") (28815 # 100) /\ few_digits 10 (28815 # 100) /\ b_parse (lit "288.150") = Some (bf "288.15") /\
  fmt_g 10 (bf "288.150") = lit "288.15" /\ b_repr (bf "1.50e-07") = lit "1.5e-07".
Proof.
  split; [apply (Denotes false (lit "288") (Some (lit "150")) None); [discriminate | reflexivity | reflexivity] |].
  split; [exists 28815%Z, (-2)%Z; split; reflexivity |]. repeat split; vm_compute; reflexivity.
Qed.
(** A file of one variable over two points. *)
Definition r_short : r1001 f64 := mk1001 sample_common [Records.mkVar (fn "0.1") (fn "-9999.99") (lit "temp (K)")] (fn "0.1") (lit "t (s)")
  (map fn ["0.1"; "0.3"]%pylit) [map fn ["288.15"; "-9999.99"]%pylit].
Definition d_short : na f64 := of_list ((kNLHEAD, PInt 14) :: items1001 r_short).
Lemma r_short_ok : ok1001 r_short.
Proof. split; [apply common_sample_ok |]. cbn [r_short r1_vars r1_xname r1_v r1_x map length]. cbn. ok. Qed.
Lemma short_lit l (neg : bool) ip fp q t : lit l = sign_str neg ++ ip ++ c_dot :: fp -> ip <> [] -> forallb is_digit (ip ++ fp) = true ->
  ((if neg then - (1) else 1) * inject_Z (digit_value (ip ++ fp)) * 10 ^ (- Z.of_nat (length (ip ++ fp) - length ip)) == inject_Z q * 10 ^ t) ->
  (Z.abs q < 10 ^ 10)%Z -> 10 ^ (-300) <= Qabs (inject_Z q * 10 ^ t) -> infinite (f_val (f_of (bf l))) = false ->
  b_parse (lit l) = Some (f_val (f_of (bf l))) -> short (fn l).
Proof.
  intros E Hi Hd Hv Hq Hr Hf Hp. exists (lit l), (inject_Z q * 10 ^ t). split.
  - rewrite E. replace (sign_str neg ++ ip ++ c_dot :: fp) with (sign_str neg ++ ip ++ (c_dot :: fp) ++ []) by now rewrite app_nil_r.
    apply (Denotes neg ip (Some fp) None); [exact Hi | exact Hd |]. symmetry. exact Hv.
  - split; [exists q, t; split; [exact Hq | reflexivity] |]. split; [now right | split; assumption].
Qed.
Ltac shorts n i f q t := apply (short_lit _ n i f q t);
  [reflexivity | discriminate | reflexivity | vm_compute; reflexivity | reflexivity | vm_compute; discriminate | vm_compute; reflexivity | vm_compute; reflexivity].
Example C120_files_example : comes_back opts_f64 C1001 d_short (items1001 (norm1001 (fun x => x) r_short)).
Proof.
  apply (C120_files_partial d_short 14 eq_refl); [apply r_short_ok | | |].
  - cbn [r_short r1_x map]. constructor; [shorts false (lit "0") (lit "1") 1%Z (-1)%Z |]. constructor; [shorts false (lit "0") (lit "3") 3%Z (-1)%Z | constructor].
  - cbn [r_short r1_v map]. constructor; [| constructor]. constructor; [shorts false (lit "288") (lit "15") 28815%Z (-2)%Z |].
    constructor; [shorts true (lit "9999") (lit "99") (-999999)%Z (-2)%Z | constructor].
  - assert (K : has d_short ((kNLHEAD, PInt 14) :: items1001 r_short)) by (apply RT6.is_dict_has; [nodup | intros k; reflexivity]).
    intros k v Hi. apply K. now right.
Qed.
Print Assumptions C120_data_partial.
Print Assumptions C120_header_partial.
Print Assumptions C120_refuted.
Print Assumptions C120_files_partial.
