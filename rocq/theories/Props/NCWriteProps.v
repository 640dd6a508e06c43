(** Properties C40, C41, C42, C53: from converted dictionaries to files. *)
From Coq Require Import List NArith ZArith Bool Lia FinFun.
From Verif Require Import Py.Str Py.Res Py.Num Model.Dict Model.TextParser Model.CommonUtils
  Model.NAWrite Model.NARead Model.Utils Model.NCWrite Spec.TextSpec Spec.Records Spec.RoundTripSpec Spec.NestedSpec Spec.NCWriteSpec
  Spec.Samples Spec.WholeNum Spec.RecordSamples Proofs.StrLemmas Proofs.NumLemmas Proofs.RTHead Proofs.SampleOk
  Props.RoundTrip Props.NestedProps.
Import ListNotations.

(** * Names *)
Lemma uint_zeros n s d : uint_of_str true s = Some d -> exists d', uint_of_str true (zeros n ++ s) = Some d' /\ N.of_uint d' = N.of_uint d.
Proof.
  intros E. induction n as [|n (d' & E' & V)]; [exists d; auto|].
  exists (Decimal.D0 d'). split; [|exact V]. cbn [zeros repeat app uint_of_str]. change (repeat 48%N n) with (zeros n). rewrite E'.
  reflexivity.
Qed.
Lemma pad3_inj a b : (0 <= a)%Z -> (0 <= b)%Z -> pad3 a = pad3 b -> a = b.
Proof.
  assert (K : forall z, (0 <= z)%Z -> exists d, uint_of_str true (pad3 z) = Some d /\ Z.of_N (N.of_uint d) = z).
  { intros z Hz. destruct z as [|p|p]; [| |lia].
    - exists (Decimal.D0 (Decimal.D0 (Decimal.D0 Decimal.Nil))). split; reflexivity.
    - unfold pad3. cbv zeta. change (dec_of_Z (Zpos p)) with (str_of_uint (N.to_uint (Npos p))).
      destruct (uint_zeros (3 - length (str_of_uint (N.to_uint (Npos p)))) _ _ (uint_of_str_true (N.to_uint (Npos p)))) as (d & E & V).
      exists d. split; [exact E|]. rewrite V, DecimalN.Unsigned.of_to. reflexivity. }
  intros Ha Hb E. destruct (K a Ha) as (da & Ea & Va). destruct (K b Hb) as (db & Eb & Vb).
  rewrite E in Ea. congruence.
Qed.
Lemma chunk_name_inj f a b : (0 <= a)%Z -> (0 <= b)%Z -> chunk_name f a = chunk_name f b -> a = b.
Proof.
  intros Ha Hb E. unfold chunk_name in E. apply app_inv_head in E. injection E as E. apply app_inv_tail in E.
  now apply pad3_inj.
Qed.
Lemma chunk_names_nodup f a n : NoDup (map (fun i => chunk_name f (Z.of_nat i)) (seq a n)).
Proof.
  apply Injective_map_NoDup; [|apply seq_NoDup]. intros x y E. apply chunk_name_inj in E; lia.
Qed.

(** ** C42 *)
(** As many names as dictionaries, all different. *)
Theorem C42_distinct : forall na_file n,
  length (constructNAFileNames na_file n) = n /\ NoDup (constructNAFileNames na_file n).
Proof.
  intros f n. unfold constructNAFileNames. destruct (Nat.eqb_spec n 1) as [-> | Hn].
  - split; [reflexivity|]. constructor; [intros []|constructor].
  - split; [now rewrite map_length, seq_length|]. apply Injective_map_NoDup; [|apply seq_NoDup].
    intros x y E. apply app_inv_head in E. rewrite !app_assoc in E. apply app_inv_tail in E. rewrite <- !app_assoc in E.
    injection E as E. apply app_inv_tail in E. now apply dec_of_nat_inj in E.
Qed.
Lemma split_chr_last d a b : ~ In d b -> exists l, split_chr d (a ++ d :: b) = l ++ [b] /\ join [d] l = a /\ l <> [].
Proof.
  intros Hb. unfold split_chr. induction a as [|c a IH]; cbn [app split_chr_aux].
  - rewrite N.eqb_refl. assert (E : split_chr_aux d b = (b, [])).
    { induction b as [|c b IHb]; [reflexivity|]. cbn [split_chr_aux]. rewrite IHb by (intros K; apply Hb; now right).
      destruct (N.eqb_spec c d) as [-> | _]; [exfalso; apply Hb; now left|reflexivity]. }
    rewrite E. exists [[]]. repeat split. discriminate.
  - destruct (split_chr_aux d (a ++ d :: b)) as [w ws]. destruct IH as (l & E & J & Hl).
    destruct (N.eqb_spec c d) as [-> | Hc].
    + exists ([] :: l). cbn [app]. rewrite E. split; [reflexivity|]. split; [|discriminate].
      destruct l as [|x l]; [congruence|]. change (d :: join [d] (x :: l) = d :: a). now rewrite J.
    + destruct l as [|x l]; [congruence|]. cbn [app] in E. injection E as -> E. exists ((c :: x) :: l). cbn [app]. rewrite E.
      split; [reflexivity|]. split; [|discriminate]. destruct l; cbn [join app] in *; now rewrite <- J.
Qed.
(** A name with an extension: directory, stem and extension are kept, and
    [_1], [_2], ... is put before the extension. *)
Theorem C42_keeps_parts : forall dir stem ext n i, (n <> 1)%nat -> (i < n)%nat -> ~ In c_dot ext ->
  nth_error (constructNAFileNames (dir ++ stem ++ [c_dot] ++ ext) n) i
  = Some (dir ++ stem ++ lit "_" ++ dec_of_nat (S i) ++ [c_dot] ++ ext).
Proof.
  intros dir stem ext n i Hn Hi He. unfold constructNAFileNames. destruct (Nat.eqb_spec n 1); [congruence|].
  destruct (split_chr_last c_dot (dir ++ stem) ext He) as (l & E & J & Hl).
  rewrite <- app_assoc in E. cbn [app] in E |- *. rewrite E, removelast_last, last_last, J.
  rewrite nth_error_map, (nth_error_nth' _ 0%nat), seq_nth by (rewrite ?seq_length; lia). cbn [option_map]. f_equal.
  rewrite <- !app_assoc. reflexivity.
Qed.
Theorem C42_single : forall na_file, constructNAFileNames na_file 1 = [na_file].
Proof. reflexivity. Qed.
Example C42_example : constructNAFileNames (lit "dir.d/out.na") 2 = [lit "dir.d/out_1.na"; lit "dir.d/out_2.na"].
Proof. reflexivity. Qed.
(** Without an extension the counter is put before the first letter of the
    directory, or before the last dot of the directory name. *)
Example C42_no_extension : constructNAFileNames (lit "dir/out") 2 = [lit "_1.dir/out"; lit "_2.dir/out"] /\
  constructNAFileNames (lit "dir.d/out") 2 = [lit "dir_1.d/out"; lit "dir_2.d/out"].
Proof. split; reflexivity. Qed.
(** The name that is used when none is given: .na in the place of .nc, or after the
    name. *)
Theorem C42_default : forall f, (forall base, f = base ++ lit ".nc" -> default_na_file f = base ++ lit ".na") /\
  ((forall base, f <> base ++ lit ".nc") -> default_na_file f = f ++ lit ".na").
Proof.
  intros f. unfold default_na_file. split.
  - intros base ->. assert (K : slice_from (base ++ lit ".nc") (-3)%Z = lit ".nc" /\ slice_to (base ++ lit ".nc") (-3)%Z = base).
    { unfold slice_from, slice_to. cbn [Z.ltb Z.compare]. rewrite app_length. change (length (lit ".nc")) with 3%nat.
      replace (Z.to_nat _) with (length base) by lia. rewrite skipn_app, skipn_all, firstn_app, firstn_all, Nat.sub_diag, app_nil_r. split; reflexivity. }
    destruct K as [-> ->]. reflexivity.
  - intros N. destruct (str_eqb (slice_from f (-3)%Z) (lit ".nc")) eqn:E; [| reflexivity]. exfalso. apply str_eqb_eq in E. apply (N (slice_to f (-3)%Z)).
    rewrite <- E. unfold slice_from, slice_to. cbn [Z.ltb Z.compare]. symmetry. apply firstn_skipn.
Qed.
Example C42_default_example : default_na_file (lit "run.nc") = lit "run.na" /\ default_na_file (lit "run.cdf") = lit "run.cdf.na" /\ default_na_file (lit "c") = lit "c.na".
Proof. repeat split. Qed.
Print Assumptions C42_single.
Print Assumptions C42_default.

(** * Size-limited output *)
Lemma slice_group {A} (l : list A) s i n : length l = n -> (i * s <= n)%nat ->
  slice l (Z.of_nat (i * s)) (Z.of_nat (Nat.min (i * s + s) n)) = group s l i.
Proof.
  intros Hl Hi. unfold slice, clip, group.
  destruct (Z.ltb_spec (Z.of_nat (Nat.min (i * s + s) n)) 0); [lia|].
  destruct (Z.ltb_spec (Z.of_nat (i * s)) 0); [lia|]. rewrite Hl.
  rewrite !Z.min_l by lia. rewrite Nat2Z.id.
  destruct (Nat.le_gt_cases (i * s + s) n) as [H1 | H1].
  - rewrite Nat.min_l by lia. f_equal. lia.
  - rewrite Nat.min_r by lia. rewrite !firstn_all2; auto; rewrite skipn_length; lia.
Qed.
Lemma group_length {A} (l : list A) s i : length (group s l i) = Nat.min s (length l - i * s).
Proof. unfold group. now rewrite firstn_length, skipn_length. Qed.
Lemma concat_blocks {A} (l : list A) s k : (length l <= k * s)%nat -> concat (blocks s k l) = l.
Proof.
  revert l. induction k as [|k IH]; intros l Hl.
  - destruct l; [reflexivity|cbn in Hl; lia].
  - unfold blocks. cbn [seq map concat]. unfold group at 1. cbn [Nat.mul skipn].
    rewrite <- seq_shift, map_map.
    assert (E : map (fun x => group s l (S x)) (seq 0 k) = blocks s k (skipn s l)).
    { apply map_ext. intros r. unfold group. rewrite skipn_plus. do 2 f_equal. cbn [Nat.mul]. lia. }
    rewrite E, IH; [apply firstn_skipn|]. rewrite skipn_length. cbn [Nat.mul] in Hl. lia.
Qed.
Lemma block_count_nvol n s k : (0 < s)%nat -> block_count n s k ->
  (Z.of_nat n / Z.of_nat s + (if 0 <? Z.of_nat n mod Z.of_nat s then 1 else 0) = Z.of_nat k)%Z.
Proof.
  intros Hs [H1 H2]. pose proof (Z.div_mod (Z.of_nat n) (Z.of_nat s) ltac:(lia)) as D.
  pose proof (Z.mod_pos_bound (Z.of_nat n) (Z.of_nat s) ltac:(lia)) as M.
  destruct (Z.ltb_spec 0 (Z.of_nat n mod Z.of_nat s)); nia.
Qed.
Lemma block_count_exists n s : (0 < s)%nat -> exists k, block_count n s k.
Proof.
  intros Hs. exists ((n + s - 1) / s)%nat. unfold block_count.
  pose proof (Nat.div_mod (n + s - 1) s ltac:(lia)). pose proof (Nat.mod_upper_bound (n + s - 1) s ltac:(lia)). nia.
Qed.

Section Blocks.
Context {num : Type} {Num : NumOps num}.
Local Notation pyv := (pyv num).
Local Notation na := (na num).
Variables (o : opts num) (d : na) (file_name : str) (X : list pyv) (cols : list (list pyv)) (n s k : nat).
Hypothesis HX : d kX = Some (PList X).
Hypothesis HlX : length X = n.
Hypothesis HlC : Forall (fun c => length c = n) cols.
Hypothesis Hs : (0 < s)%nat.
Hypothesis Hk : block_count n s k.

Definition vol (i : nat) : na :=
  match modifyNADictCopy d (PList (map (fun c => PList (group s c i)) cols)) (Z.of_nat (i * s))
          (Z.of_nat (Nat.min (i * s + s) n)) (Z.of_nat i + 1) (Z.of_nat k) with
  | Ok d' => d'
  | Err _ => d
  end.
Definition vol_name (i : nat) : str := chunk_name file_name (Z.of_nat i + 1).

Lemma slice_cols i : (i * s <= n)%nat ->
  mapR (fun v => slice_v v (Z.of_nat (i * s)) (Z.of_nat (Nat.min (i * s + s) n))) (map PList cols)
  = Ok (map (fun c => PList (group s c i)) cols).
Proof.
  intros Hi. generalize HlC. generalize cols as cs. intros cs HC. induction HC as [|c cs Hc _ IH]; [reflexivity|].
  cbn [map mapR slice_v bindR]. rewrite (slice_group c s i n Hc Hi). cbn [bindR]. rewrite IH. reflexivity.
Qed.
Lemma vol_ok i : modifyNADictCopy d (PList (map (fun c => PList (group s c i)) cols)) (Z.of_nat (i * s))
          (Z.of_nat (Nat.min (i * s + s) n)) (Z.of_nat i + 1) (Z.of_nat k) = Ok (vol i).
Proof. unfold vol, modifyNADictCopy. rewrite HX. reflexivity. Qed.
Lemma vol_spec i : (i * s <= n)%nat ->
  vol i kX = Some (PList (group s X i)) /\
  (d kV <> None -> vol i kV = Some (PList (map (fun c => PList (group s c i)) cols))) /\
  (d kIVOL <> None -> vol i kIVOL = Some (PInt (Z.of_nat i + 1))) /\
  (d kNVOL <> None -> vol i kNVOL = Some (PInt (Z.of_nat k))) /\
  (forall key, ~ In key [kX; kV; kIVOL; kNVOL] -> vol i key = d key).
Proof.
  intros Hi. unfold vol, modifyNADictCopy. rewrite HX. cbv zeta. unfold upd at 1. cbn [key_beq].
  split; [now rewrite (slice_group X s i n HlX Hi)|].
  split; [|split; [|split]].
  - intros K. unfold upd. cbn [key_beq]. destruct (d kV); congruence.
  - intros K. unfold upd. cbn [key_beq]. destruct (d kIVOL); congruence.
  - intros K. unfold upd. cbn [key_beq]. destruct (d kNVOL); congruence.
  - intros key Hkey. unfold upd. destruct (key_beq kX key) eqn:E.
    + apply internal_key_dec_bl in E. subst. exfalso. apply Hkey. now left.
    + destruct (d key); [|reflexivity]. destruct key; try reflexivity; exfalso; apply Hkey; cbn; tauto.
Qed.

Definition files (a m : nat) : list (str * na) := map (fun i => (vol_name i, vol i)) (seq a m).

Lemma loop_run m : forall i fuel names fs, (m < fuel)%nat -> (i + m = k)%nat ->
  subsets_loop fuel o d file_name (map PList cols) (Z.of_nat s) (Z.of_nat n) (Z.of_nat k)
    (Z.of_nat (Nat.min (i * s) n)) (Z.of_nat i) names fs
  = (let (r, fs') := put_all o (files i m) fs in
     (match r with Ok _ => Ok (names ++ twice (map fst (files i m))) | Err e => Err e end, fs')).
Proof.
  destruct Hk as [Hk1 Hk2]. induction m as [|m IH]; intros i fuel names fs Hf Hi.
  - destruct fuel as [|fuel]; [lia|]. cbn [subsets_loop files seq map put_all twice flat_map].
    destruct (Z.ltb_spec (Z.of_nat (Nat.min (i * s) n)) (Z.of_nat n)); [nia|]. now rewrite app_nil_r.
  - destruct fuel as [|fuel]; [lia|]. cbn [subsets_loop].
    assert (Hlt : (i * s < n)%nat) by nia.
    rewrite (Nat.min_l (i * s) n) by lia.
    destruct (Z.ltb_spec (Z.of_nat (i * s)) (Z.of_nat n)); [|lia].
    replace (if (Z.of_nat (i * s) + Z.of_nat s >? Z.of_nat n)%Z then Z.of_nat n else (Z.of_nat (i * s) + Z.of_nat s)%Z)
      with (Z.of_nat (Nat.min (i * s + s) n)).
    2:{ rewrite Z.gtb_ltb. destruct (Z.ltb_spec (Z.of_nat n) (Z.of_nat (i * s) + Z.of_nat s)); lia. }
    rewrite slice_cols by lia. cbn [bindR]. rewrite vol_ok.
    unfold files. cbn [seq map put_all]. unfold vol_name at 1.
    destruct (put_file o false (chunk_name file_name (Z.of_nat i + 1)) (vol i) fs) as [[u|e] fs'] eqn:Ep.
    + replace (Z.of_nat i + 1)%Z with (Z.of_nat (S i)) by lia.
      replace (i * s + s)%nat with (S i * s)%nat by lia. rewrite IH by lia.
      fold (files (S i) m). destruct (put_all o (files (S i) m) fs') as [[u'|e] fs'']; [|reflexivity].
      cbn [fst twice flat_map map]. rewrite <- app_assoc. unfold vol_name.
      replace (Z.of_nat i + 1)%Z with (Z.of_nat (S i)) by lia. reflexivity.
    + reflexivity.
Qed.
End Blocks.

(** ** C40 *)
(** Any dictionary with equally long columns, any size limit [s >= 1]: with [k]
    the number of blocks, exactly the volumes [1..k] are written in this order
    (up to the first volume that cannot be written).  The volume [i+1] has the
    rows [i*s .. i*s+s-1] and the numbers [i+1] and [k], and is otherwise the
    dictionary; the names are different, the blocks have at most [s] rows and
    together they are the data. *)
Theorem C40_partition : forall num (Num : NumOps num) (o : opts num) (d : na num) file_name X c0 cols n s k fs,
  d kX = Some (PList X) -> d kV = Some (PList (map PList (c0 :: cols))) ->
  length X = n -> Forall (fun c => length c = n) (c0 :: cols) ->
  (0 < s)%nat -> block_count n s k ->
  exists vols, length vols = k /\
    (forall fuel, (k < fuel)%nat -> writeNAFileSubsets fuel o d file_name (Z.of_nat s) fs =
      (let (r, fs') := put_all o vols fs in
       (match r with Ok _ => Ok (twice (map fst vols)) | Err e => Err e end, fs'))) /\
    map fst vols = map (fun i => chunk_name file_name (Z.of_nat i + 1)) (seq 0 k) /\ NoDup (map fst vols) /\
    (forall i, (i < k)%nat -> exists name v, nth_error vols i = Some (name, v) /\
       v kX = Some (PList (group s X i)) /\ v kV = Some (PList (map (fun c => PList (group s c i)) (c0 :: cols))) /\
       (d kIVOL <> None -> v kIVOL = Some (PInt (Z.of_nat i + 1))) /\
       (d kNVOL <> None -> v kNVOL = Some (PInt (Z.of_nat k))) /\
       forall key, ~ In key [kX; kV; kIVOL; kNVOL] -> v key = d key) /\
    (forall c, In c (X :: c0 :: cols) ->
       Forall (fun b => 1 <= length b <= s)%nat (blocks s k c) /\ concat (blocks s k c) = c).
Proof.
  intros num Num o d f X c0 cols n s k fs HX HV HlX HlC Hs Hk.
  exists (files d f (c0 :: cols) n s k 0 k). split; [|split; [|split; [|split; [|split]]]].
  - unfold files. now rewrite map_length, seq_length.
  - intros fuel Hf. unfold writeNAFileSubsets, get. rewrite HV. cbn [of_opt bindR as_list map nth_res nth_error len_v].
    destruct (Z.eqb_spec (Z.of_nat s) 0); [lia|].
    assert (Hc0 : length c0 = n) by (inversion HlC; auto). rewrite Hc0, (block_count_nvol n s k Hs Hk).
    change (PList c0 :: map PList cols) with (map (@PList num) (c0 :: cols)).
    pose proof (loop_run o d f X (c0 :: cols) n s k HX HlX HlC Hs Hk k 0 fuel [] fs Hf eq_refl) as L.
    cbn [Nat.mul Nat.min Z.of_nat app] in L. exact L.
  - unfold files. rewrite map_map. reflexivity.
  - unfold files. rewrite map_map. cbn [fst]. unfold vol_name.
    apply Injective_map_NoDup; [|apply seq_NoDup]. intros x y E. apply chunk_name_inj in E; lia.
  - intros i Hi. exists (vol_name f i), (vol d (c0 :: cols) n s k i). split.
    { unfold files. rewrite nth_error_map, (nth_error_nth' _ 0%nat), seq_nth by (rewrite ?seq_length; lia). reflexivity. }
    assert (Hin : (i * s <= n)%nat) by (destruct Hk; nia).
    destruct (vol_spec d X (c0 :: cols) n s k HX HlX HlC Hk i Hin) as (V1 & V2 & V3 & V4 & V5).
    rewrite HV in V2. split; [exact V1|]. split; [apply V2; discriminate|]. auto.
  - intros c Hc. assert (Hlc : length c = n).
    { destruct Hc as [<- | Hc]; [exact HlX|]. rewrite Forall_forall in HlC. now apply HlC. }
    destruct Hk as [Hk1 Hk2]. split; [|apply concat_blocks; lia].
    unfold blocks. apply Forall_forall. intros b Hb. apply in_map_iff in Hb as (i & <- & Hi). apply in_seq in Hi.
    rewrite group_length, Hlc. nia.
Qed.

(** For well-formed data the files read back. *)
Lemma sd_get_set fs a b (v : str) : sd_get (sd_set fs a v) b = if str_eqb b a then Some v else sd_get fs b.
Proof.
  induction fs as [|[k w] fs IH]; cbn [sd_set sd_get]; [reflexivity|].
  destruct (str_eqb a k) eqn:E; cbn [sd_get].
  - apply str_eqb_eq in E. subst. destruct (str_eqb b k); reflexivity.
  - rewrite IH. destruct (str_eqb b k) eqn:Eb; [|reflexivity]. destruct (str_eqb b a) eqn:Ea; [|reflexivity].
    apply str_eqb_eq in Eb, Ea. subst. assert (str_eqb k k = true) by now apply str_eqb_eq. congruence.
Qed.
Lemma put_all_ok {num} {Num : NumOps num} (o : opts num) (l : list (str * na num)) (content : nat -> str) : forall a fs,
  NoDup (map fst l) ->
  (forall i name v, nth_error l i = Some (name, v) -> forall fs', put_file o false name v fs' = (Ok tt, sd_set fs' name (content (a + i)%nat))) ->
  exists fs', put_all o l fs = (Ok tt, fs') /\
    (forall i name v, nth_error l i = Some (name, v) -> sd_get fs' name = Some (content (a + i)%nat)) /\
    (forall name, ~ In name (map fst l) -> sd_get fs' name = sd_get fs name).
Proof.
  induction l as [|[name v] l IH]; intros a fs Hd Hp.
  - exists fs. split; [reflexivity|]. split; [intros [|i] ? ? E; discriminate|]. auto.
  - cbn [map fst] in Hd. inversion Hd as [|? ? Hn Hd']; subst.
    cbn [put_all]. rewrite (Hp 0%nat name v eq_refl fs), Nat.add_0_r.
    destruct (IH (S a) (sd_set fs name (content a)) Hd') as (fs' & E & G & R).
    { intros i nm w Ei. specialize (Hp (S i) nm w Ei). now rewrite Nat.add_succ_r in Hp. }
    exists fs'. split; [exact E|]. split.
    + intros [|i] nm w Ei.
      * cbn in Ei. injection Ei as <- <-. rewrite R by exact Hn. rewrite sd_get_set, Nat.add_0_r.
        assert (K : str_eqb name name = true) by now apply str_eqb_eq. now rewrite K.
      * rewrite Nat.add_succ_r. apply (G i nm w Ei).
    + intros nm Hnm. cbn [map fst] in Hnm. rewrite R by (intros K; apply Hnm; now right).
      rewrite sd_get_set. destruct (str_eqb nm name) eqn:K; [|reflexivity]. apply str_eqb_eq in K. subst.
      exfalso. apply Hnm. now left.
Qed.

Lemma has_in {num} (d : na num) items k v : has d items -> In (k, v) items -> d k = Some v.
Proof. intros H. apply H. Qed.
Lemma volume_ok {num} (r : r1001 num) s k i : ok1001 r -> ok1001 (volume s k i r).
Proof.
  intros (H1 & H2 & H3 & H4 & H5). unfold ok1001, volume. cbn.
  split; [exact H1|]. split; [exact H2|]. split; [exact H3|]. split; [now rewrite map_length|].
  apply Forall_forall. intros c Hc. apply in_map_iff in Hc as (c' & <- & Hc').
  rewrite !group_length. rewrite Forall_forall in H5. now rewrite (H5 c' Hc').
Qed.
Lemma map_group {A B} (f : A -> B) s l i : group s (map f l) i = map f (group s l i).
Proof. unfold group. now rewrite skipn_map, firstn_map. Qed.
Theorem C40_read_back : forall num (Num : NumOps num) (o : opts num) g (r : r1001 num) (d : na num) nlh file_name s k fs no_header,
  plain_opts o g -> ok1001 r -> has d (items1001 r) -> attr d kNLHEAD = PInt nlh ->
  (0 < s < length (r1_x r))%nat -> block_count (length (r1_x r)) s k ->
  exists names fs',
    (forall fuel, (k < fuel)%nat -> write_one fuel o no_header (Some (Z.of_nat s)) file_name d fs = (Ok (twice names), fs')) /\
    names = map (fun i => chunk_name file_name (Z.of_nat i + 1)) (seq 0 k) /\ NoDup names /\
    (forall i name, nth_error names i = Some name ->
       reads_back fs' name C1001 (items1001 (norm1001 g (volume s k i r)))) /\
    (forall name, ~ In name names -> sd_get fs' name = sd_get fs name).
Proof.
  intros num Num o g r d nlh f s k fs nh Ho Hr Hd Hn Hs Hk.
  set (n := length (r1_x r)) in *.
  pose proof Hr as (Hc & (Hv0 & Hv) & Hxn & Hl1 & Hl2).
  assert (EX : d kX = Some (nums_pv (r1_x r))) by (apply Hd; cbn; tauto).
  assert (EV : d kV = Some (PList (map nums_pv (r1_v r)))) by (apply Hd; cbn; tauto).
  assert (EF : d kFFI = Some (PInt 1001)) by (apply Hd; cbn; tauto).
  destruct (r1_v r) as [|v0 vs] eqn:Erv.
  { exfalso. destruct (r1_vars r); [congruence|discriminate]. }
  assert (EV' : d kV = Some (PList (map PList (map (map pv) (v0 :: vs))))).
  { rewrite EV. unfold nums_pv. now rewrite map_map. }
  destruct (C40_partition num Num o d f (map pv (r1_x r)) (map pv v0) (map (map pv) vs) n s k fs) as
    (vols & Hlen & Hrun & Hnames & Hnd & Hvol & _); auto; try lia.
  { now rewrite map_length. }
  { change (map pv v0 :: map (map pv) vs) with (map (map (@pv num)) (v0 :: vs)). rewrite Forall_map.
    eapply Forall_impl; [|exact Hl2]. intros c Hc'. cbv beta in *. rewrite map_length. exact Hc'. }
  (* every volume is a well-formed dictionary *)
  assert (Hhas : forall i name v, nth_error vols i = Some (name, v) -> has v (items1001 (volume s k i r)) /\ attr v kNLHEAD = PInt nlh /\ v kFFI = Some (PInt 1001)).
  { intros i name v E. assert (Hi : (i < k)%nat) by (rewrite <- Hlen; apply nth_error_Some; congruence).
    destruct (Hvol i Hi) as (name' & v' & E' & V1 & V2 & V3 & V4 & V5). rewrite E in E'. injection E' as <- <-.
    assert (ED : d kDX <> None /\ d kIVOL <> None /\ d kNVOL <> None).
    { split; [|split]; erewrite (has_in d); try exact Hd; try (cbn; tauto); discriminate. }
    destruct ED as (_ & D1 & D2).
    split; [|split].
    - intros key w Hin. unfold items1001, volume in Hin. cbn [r1_common r1_vars r1_dx r1_xname r1_x r1_v] in Hin.
      assert (Hother : ~ In key [kX; kV; kIVOL; kNVOL] -> In (key, w) (items1001 r) -> v key = Some w).
      { intros K1 K2. rewrite V5 by exact K1. apply Hd. exact K2. }
      cbn in Hin.
      repeat (destruct Hin as [E0 | Hin]; [injection E0 as <- <-;
        first [ rewrite V1; unfold nums_pv; now rewrite map_group
              | rewrite V2; unfold nums_pv; rewrite Erv; cbn [map]; rewrite !map_group, !map_map; do 3 f_equal; apply map_ext; intros; now rewrite map_group
              | now apply V3 | now apply V4
              | apply Hother; [cbn; intuition discriminate|cbn; tauto] ]|]).
      destruct Hin.
    - unfold attr. rewrite V5 by (cbn; intuition discriminate). exact Hn.
    - rewrite V5 by (cbn; intuition discriminate). exact EF. }
  pose (content i := match nth_error vols i with
                     | Some (_, v) => w_file (snd (write_body o C1001 false (mkW [] [] v)))
                     | None => []
                     end).
  assert (Hput : forall i name v, nth_error vols i = Some (name, v) ->
     (forall fs', put_file o false name v fs' = (Ok tt, sd_set fs' name (content i))) /\
     exists d' hl, read_file (content i) 0 = Ok (C1001, d') /\ is_dict d' (read_items hl ++ items1001 (norm1001 g (volume s k i r)))).
  { intros i name v E. destruct (Hhas i name v E) as (Hh & Hnl & Hffi).
    destruct (C09_roundtrip_1001 num Num o g (volume s k i r) v nlh Ho (volume_ok r s k i Hr) Hh Hnl []) as
      (file & hdr & d2 & Ew & data & d' & _ & Er & Ed).
    assert (Ec : content i = file) by (unfold content; rewrite E, Ew; reflexivity). rewrite Ec. split.
    - intros fs'. unfold put_file, openNAFile_w. rewrite Hffi. cbn [bindR getNAFileClass find all_cls].
      change (getNAFileClass 1001) with (Ok C1001). cbn [bindR]. rewrite Ew. reflexivity.
    - exists d', (count_chr c_nl hdr). split; [exact Er|exact Ed]. }
  destruct (put_all_ok o vols content 0 fs Hnd) as (fs' & Eall & Hget & Hrest).
  { intros i name v E. apply (Hput i name v E). }
  exists (map fst vols), fs'. split; [|split; [exact Hnames|split; [exact Hnd|split; [|exact Hrest]]]].
  - intros fuel Hf. unfold write_one, get. rewrite EF, EV. cbn [of_opt bindR index as_list map nth_res nth_error len_v nums_pv].
    rewrite map_length. assert (Hv0n : length v0 = n) by (inversion Hl2; auto). rewrite Hv0n.
    destruct (Z.ltb_spec (Z.of_nat s) (Z.of_nat n)); [|lia]. rewrite (Hrun fuel Hf), Eall. reflexivity.
  - intros i name E. rewrite nth_error_map in E. destruct (nth_error vols i) as [[nm v]|] eqn:Ei; [|discriminate].
    injection E as <-. destruct (Hput i nm v Ei) as (_ & d' & hl & Er & Ed).
    exists (content i), d', hl. split; [apply (Hget i nm v Ei)|]. split; assumption.
Qed.
Example C40_example : exists names fs',
  write_one 9 opts_whole false (Some 2%Z) (lit "out.na") (dict_of (items1001 s1001)) [] = (Ok (twice names), fs') /\
  names = [lit "out-001.na"; lit "out-002.na"] /\
  (forall i name, nth_error names i = Some name ->
     reads_back fs' name C1001 (items1001 (norm1001 (fun x => x) (volume 2 2 i s1001)))).
Proof.
  destruct (C40_read_back whole _ opts_whole (fun x => x) s1001 (dict_of (items1001 s1001)) 17 (lit "out.na") 2 2 [] false)
    as (names & fs' & E & En & _ & Hr & _).
  - apply plain_whole.
  - apply s1001_ok.
  - apply dict_of_has; nodup.
  - reflexivity.
  - cbn. lia.
  - vm_compute. lia.
  - exists names, fs'. split; [apply E; lia|]. split; [exact En|exact Hr].
Qed.

(** ** C41 *)
(** For a size limit of at least 1 the loop ends, but every file is reported
    twice.  Missing: one entry per file. *)
Theorem C41_positive_partial : forall num (Num : NumOps num) (o : opts num) g (r : r1001 num) (d : na num) nlh file_name s fs no_header,
  plain_opts o g -> ok1001 r -> has d (items1001 r) -> attr d kNLHEAD = PInt nlh ->
  (0 < s < length (r1_x r))%nat ->
  exists k names fs', block_count (length (r1_x r)) s k /\ length names = k /\ NoDup names /\
    forall fuel, (k < fuel)%nat ->
      write_one fuel o no_header (Some (Z.of_nat s)) file_name d fs = (Ok (twice names), fs').
Proof.
  intros num Num o g r d nlh f s fs nh Ho Hr Hd Hn Hs.
  destruct (block_count_exists (length (r1_x r)) s ltac:(lia)) as (k & Hk).
  destruct (C40_read_back num Num o g r d nlh f s k fs nh Ho Hr Hd Hn Hs Hk) as (names & fs' & E & En & Hnd & _).
  exists k, names, fs'. split; [exact Hk|]. split; [now rewrite En, map_length, seq_length|]. split; [exact Hnd|exact E].
Qed.
(** Every file is reported twice. *)
Theorem C41_reported_refuted : exists (r : r1001 whole) reported fs',
  ok1001 r /\ write_one 9 opts_whole false (Some 2%Z) (lit "out.na") (dict_of (items1001 r)) [] = (Ok reported, fs') /\
  reported = [lit "out-001.na"; lit "out-001.na"; lit "out-002.na"; lit "out-002.na"].
Proof.
  destruct C40_example as (names & fs' & E & En & _). exists s1001, (twice names), fs'.
  split; [apply s1001_ok|]. split; [exact E|]. rewrite En. reflexivity.
Qed.
(** Size limit 0: ZeroDivisionError, nothing is written. *)
Theorem C41_zero_refuted : forall num (Num : NumOps num) (o : opts num) (r : r1001 num) (d : na num) file_name fs fuel no_header,
  ok1001 r -> has d (items1001 r) -> r1_x r <> [] ->
  write_one fuel o no_header (Some 0%Z) file_name d fs = (Err EZeroDivision, fs).
Proof.
  intros num Num o r d f fs fuel nh Hr Hd Hx.
  pose proof Hr as (Hc & (Hv0 & Hv) & Hxn & Hl1 & Hl2).
  assert (EV : d kV = Some (PList (map nums_pv (r1_v r)))) by (apply Hd; cbn; tauto).
  assert (EF : d kFFI = Some (PInt 1001)) by (apply Hd; cbn; tauto).
  destruct (r1_v r) as [|v0 vs]; [exfalso; destruct (r1_vars r); [congruence|discriminate]|].
  unfold write_one, get. rewrite EF, EV. cbn [of_opt bindR index as_list map nth_res nth_error len_v nums_pv].
  rewrite map_length. assert (Hv0n : length v0 = length (r1_x r)) by (inversion Hl2; auto). rewrite Hv0n.
  destruct (r1_x r) as [|x xs]; [congruence|]. destruct (Z.ltb_spec 0 (Z.of_nat (length (x :: xs)))); [|cbn in *; lia].
  unfold writeNAFileSubsets, get. rewrite EV. reflexivity.
Qed.
(** A negative size limit: the loop never ends (it goes on writing files). *)
Lemma slice_map {A B} (f : A -> B) l a b : slice (map f l) a b = map f (slice l a b).
Proof. unfold slice. rewrite map_length, skipn_map, firstn_map. reflexivity. Qed.
Lemma slice_length {A B} (l : list A) (l' : list B) a b : length l = length l' -> length (slice l a b) = length (slice l' a b).
Proof. intros E. unfold slice. rewrite !firstn_length, !skipn_length, E. reflexivity. Qed.
Theorem C41_negative_refuted : forall num (Num : NumOps num) (o : opts num) g (r : r1001 num) (d : na num) nlh file_name s fs no_header fuel,
  plain_opts o g -> ok1001 r -> has d (items1001 r) -> attr d kNLHEAD = PInt nlh -> r1_x r <> [] -> (s < 0)%Z ->
  fst (write_one fuel o no_header (Some s) file_name d fs) = Err EHang.
Proof.
  intros num Num o g r d nlh f s fs nh fuel Ho Hr Hd Hn Hx Hs.
  pose proof Hr as (Hc & (Hv0 & Hv) & Hxn & Hl1 & Hl2).
  assert (EX : d kX = Some (PList (map pv (r1_x r)))) by (apply Hd; cbn; tauto).
  assert (EV : d kV = Some (PList (map nums_pv (r1_v r)))) by (apply Hd; cbn; tauto).
  assert (EF : d kFFI = Some (PInt 1001)) by (apply Hd; cbn; tauto).
  assert (EI : d kIVOL <> None) by (erewrite (has_in d); try exact Hd; [discriminate|cbn; tauto]).
  assert (EN : d kNVOL <> None) by (erewrite (has_in d); try exact Hd; [discriminate|cbn; tauto]).
  assert (Hnx : (0 < length (r1_x r))%nat) by (destruct (r1_x r); [congruence|cbn; lia]).
  set (n := Z.of_nat (length (r1_x r))) in *.
  pose (r' a b i k := mk1001 (mkCommon (c_oname (r1_common r)) (c_org (r1_common r)) (c_sname (r1_common r)) (c_mname (r1_common r)) i k
                  (c_date (r1_common r)) (c_rdate (r1_common r)) (c_scom (r1_common r)) (c_ncom (r1_common r)))
    (r1_vars r) (r1_dx r) (r1_xname r) (slice (r1_x r) a b) (map (fun v => slice v a b) (r1_v r))).
  assert (Hr' : forall a b i k, ok1001 (r' a b i k)).
  { intros a b i k. unfold ok1001, r'. cbn. split; [exact Hc|]. split; [now split|]. split; [exact Hxn|].
    split; [now rewrite map_length|]. apply Forall_forall. intros c Hc'. apply in_map_iff in Hc' as (c' & <- & Hc').
    apply slice_length. rewrite Forall_forall in Hl2. now apply Hl2. }
  assert (Hloop : forall m start ivol k names fs, (start <= 0)%Z ->
    fst (subsets_loop m o d f (map nums_pv (r1_v r)) s n k start ivol names fs) = Err EHang).
  { induction m as [|fu IH]; intros start ivol k names fs0 Hst; [reflexivity|]. cbn [subsets_loop].
    destruct (Z.ltb_spec start n); [|lia]. rewrite Z.gtb_ltb. destruct (Z.ltb_spec n (start + s)); [lia|].
    assert (E1 : mapR (fun v => slice_v v start (start + s)) (map nums_pv (r1_v r)) =
                 Ok (map nums_pv (map (fun v => slice v start (start + s)) (r1_v r)))).
    { generalize (r1_v r). intros l. induction l as [|v l IHl]; [reflexivity|]. cbn [map mapR nums_pv slice_v bindR].
      rewrite slice_map, IHl. reflexivity. }
    rewrite E1. cbn [bindR]. unfold modifyNADictCopy at 1. rewrite EX.
    match goal with |- context[put_file o false _ ?dd fs0] => set (d' := dd) end.
    assert (Hd' : has d' (items1001 (r' start (start + s)%Z (ivol + 1)%Z k)) /\ attr d' kNLHEAD = PInt nlh /\ d' kFFI = Some (PInt 1001)).
    { assert (Ho' : forall key, ~ In key [kX; kV; kIVOL; kNVOL] -> d' key = d key).
      { intros key Hkey. unfold d', upd. destruct (key_beq kX key) eqn:E.
        - apply internal_key_dec_bl in E. subst. exfalso. apply Hkey. now left.
        - destruct (d key); [|reflexivity]. destruct key; try reflexivity; exfalso; apply Hkey; cbn; tauto. }
      split; [|split].
      - intros key w Hin. unfold items1001, r' in Hin. cbn in Hin.
        repeat (destruct Hin as [E0 | Hin]; [injection E0 as <- <-;
          first [ unfold d', upd; cbn [key_beq]; rewrite slice_map; reflexivity
                | unfold d', upd; cbn [key_beq]; rewrite EV; reflexivity
                | unfold d', upd; cbn [key_beq]; destruct (d kIVOL); congruence
                | unfold d', upd; cbn [key_beq]; destruct (d kNVOL); congruence
                | rewrite Ho' by (cbn; intuition discriminate); apply Hd; cbn; tauto ]|]).
        destruct Hin.
      - unfold attr. rewrite Ho' by (cbn; intuition discriminate). exact Hn.
      - rewrite Ho' by (cbn; intuition discriminate). exact EF. }
    destruct Hd' as (Hh & Hnl & Hffi).
    destruct (C09_roundtrip_1001 num Num o g _ d' nlh Ho (Hr' start (start + s)%Z (ivol + 1)%Z k) Hh Hnl []) as
      (file & hdr & d2 & Ew & _).
    unfold put_file, openNAFile_w. rewrite Hffi. change (getNAFileClass 1001) with (Ok C1001). cbn [bindR].
    rewrite Ew. apply IH. lia. }
  destruct (r1_v r) as [|v0 vs] eqn:Erv; [exfalso; destruct (r1_vars r); [congruence|discriminate]|].
  assert (Hv0n : length v0 = length (r1_x r)) by (inversion Hl2; auto).
  unfold write_one, get. rewrite EF, EV. cbn [of_opt bindR index as_list map nth_res nth_error len_v nums_pv].
  rewrite map_length, Hv0n. fold n. destruct (Z.ltb_spec s n); [|lia].
  unfold writeNAFileSubsets, get. rewrite EV. cbn [of_opt bindR index as_list map nth_res nth_error len_v nums_pv].
  destruct (Z.eqb_spec s 0); [lia|]. rewrite map_length, Hv0n. fold n. apply Hloop. lia.
Qed.
Example C41_negative_example : forall fuel,
  fst (write_one fuel opts_whole false (Some (-1)%Z) (lit "out.na") (dict_of (items1001 s1001)) []) = Err EHang.
Proof.
  intros fuel. eapply (C41_negative_refuted whole _ opts_whole (fun x => x) s1001);
    [apply plain_whole|apply s1001_ok|apply dict_of_has; nodup|reflexivity|discriminate|lia].
Qed.

(** * C53 *)
Definition start_mark (ncom : bool) : str := if ncom then lit "==== Normal Comments follow ====" else lit "==== Special Comments follow ====".
Definition end_mark (ncom : bool) (m : str) : Prop :=
  m = (if ncom then lit "==== Normal Comments end ====" else lit "==== Special Comments end ====") \/
  ncom = true /\ m = lit "=== Data Section begins on the next line ===".
(** New comments go first (insert) or last (extend). *)
Definition put_together {A} (r : rule) (old new : list A) : list A :=
  match r with RInsert => new ++ old | _ => old ++ new end.

Lemma is_line_eq {num} l (v : pyv num) : is_line l v = true <-> v = PStr l.
Proof.
  destruct v; cbn [is_line]; split; try discriminate.
  - intros E. apply str_eqb_eq in E. now subst.
  - intros [= ->]. now apply str_eqb_eq.
Qed.
Lemma last_res_app {A} (l : list A) x : last_res (l ++ [x]) = Ok x.
Proof. unfold last_res. now rewrite rev_app_distr. Qed.
(** Missing: an existing list that consists of the start line only (IndexError),
    and with a second marker line before the last line that line stays inside. *)
Theorem C53_merge_partial : forall num (existing new : list (pyv num)) ncom r,
  existing <> [PStr (start_mark ncom)] \/ new = [] ->
  exists s old t, existing = s ++ old ++ t /\
    cleanWrapComments existing new ncom r = Ok (s ++ put_together r old new ++ t) /\
    (s = [] \/ s = [PStr (start_mark ncom)]) /\ (t = [] \/ exists m, end_mark ncom m /\ t = [PStr m]) /\
    (forall l, existing = PStr (start_mark ncom) :: l -> s = [PStr (start_mark ncom)]) /\
    (forall l m, existing = l ++ [PStr m] -> end_mark ncom m -> t = [PStr m]).
Proof.
  intros num existing new ncom r Hne.
  assert (Hse : forall m, end_mark ncom m -> m <> start_mark ncom).
  { intros m Hm K. subst m. destruct Hm as [K | [K1 K2]]; [destruct ncom; discriminate|subst ncom; discriminate]. }
  destruct existing as [|e0 rest].
  { exists [], [], []. split; [reflexivity|]. split; [destruct r; cbn [put_together app]; rewrite ?app_nil_r; reflexivity|].
    split; [now left|]. split; [now left|]. split; [discriminate|]. intros l m E. destruct l; discriminate. }
  (* split off the markers *)
  pose (s := if is_line (start_mark ncom) e0 then [PStr (num:=num) (start_mark ncom)] else []).
  pose (body := if is_line (start_mark ncom) e0 then rest else e0 :: rest).
  assert (Es : e0 :: rest = s ++ body).
  { unfold s, body. destruct (is_line (start_mark ncom) e0) eqn:E; [|reflexivity]. apply is_line_eq in E. now subst. }
  assert (Hs1 : s = [] \/ s = [PStr (start_mark ncom)]) by (unfold s; destruct (is_line (start_mark ncom) e0); auto).
  assert (Hs2 : forall l, e0 :: rest = PStr (start_mark ncom) :: l -> s = [PStr (start_mark ncom)]).
  { intros l [= -> _]. unfold s. assert (E : is_line (num:=num) (start_mark ncom) (PStr (start_mark ncom)) = true) by now apply is_line_eq.
    now rewrite E. }
  assert (Hcase : body = [] \/ exists b0 x, body = b0 ++ [x]).
  { destruct (rev body) as [|x l] eqn:E; [left|right].
    - apply (f_equal (@rev _)) in E. now rewrite rev_involutive in E.
    - exists (rev l), x. apply (f_equal (@rev _)) in E. rewrite rev_involutive in E. rewrite E. reflexivity. }
  destruct Hcase as [Eb | (b0 & x & Eb)].
  { (* only the start line *)
    assert (Ee : e0 :: rest = [PStr (start_mark ncom)]).
    { rewrite Es, Eb, app_nil_r. destruct Hs1 as [K | K]; [|exact K]. rewrite Es, Eb, K in *. discriminate. }
    destruct Hne as [Hne | ->]; [congruence|]. rewrite Ee. exists [PStr (start_mark ncom)], [], []. split; [reflexivity|].
    split; [destruct r; reflexivity|]. split; [now right|]. split; [now left|]. split; [reflexivity|].
    intros l m E Hm. exfalso. destruct l as [|? [|? ?]]; try discriminate. injection E as E.
    now apply (Hse m). }
  pose (end_line := if ncom then hp_nc_end else hp_sc_end).
  pose (mk := is_line end_line x || (ncom && is_line hp_data_next x)).
  pose (t := if mk then [x] else []). pose (old := if mk then b0 else b0 ++ [x]).
  assert (Et : body = old ++ t).
  { unfold old, t. destruct mk; rewrite ?app_nil_r; exact Eb. }
  assert (Ht1 : t = [] \/ exists m, end_mark ncom m /\ t = [PStr m]).
  { unfold t, mk. destruct (is_line end_line x) eqn:E1; cbn [orb].
    - right. apply is_line_eq in E1. exists end_line. subst x. split; [left; unfold end_line; destruct ncom; reflexivity|reflexivity].
    - destruct ncom; cbn [andb]; [|now left]. destruct (is_line hp_data_next x) eqn:E2; [|now left].
      right. apply is_line_eq in E2. exists hp_data_next. subst x. split; [right; split; reflexivity|reflexivity]. }
  exists s, old, t. rewrite <- Et, <- Es. split; [reflexivity|]. split; [|split; [exact Hs1|split; [exact Ht1|split; [exact Hs2|]]]].
  - destruct new as [|n0 ns].
    { cbn [cleanWrapComments]. destruct r; cbn [put_together]; rewrite ?app_nil_r; cbn [app]; rewrite <- Et, <- Es; reflexivity. }
    unfold cleanWrapComments. fold (start_mark ncom). cbv zeta.
    change (if ncom then hp_nc_start else hp_sc_start) with (start_mark ncom). fold end_line. fold body. rewrite Eb, last_res_app. cbn [bindR].
    rewrite removelast_last.
    assert (Fin : forall o' tt', old = o' -> t = tt' ->
      @Ok (list (pyv num)) ((if is_line (start_mark ncom) e0 then [PStr (start_mark ncom)] else []) ++
        (match r with RInsert => (n0 :: ns) ++ o' | _ => o' ++ n0 :: ns end) ++ tt') =
      Ok (s ++ put_together r old (n0 :: ns) ++ t)).
    { intros o' t' <- <-. fold s. destruct r; reflexivity. }
    unfold t, old, mk in *. destruct (is_line end_line x) eqn:E1; cbn [orb negb andb bindR] in *.
    + apply Fin; [reflexivity|]. apply is_line_eq in E1. now subst.
    + destruct ncom; cbn [andb] in *.
      * rewrite last_res_app. cbn [bindR]. destruct (is_line hp_data_next x) eqn:E2; cbn [bindR].
        -- rewrite removelast_last. apply Fin; [reflexivity|]. apply is_line_eq in E2. now subst.
        -- apply Fin; reflexivity.
      * cbn [bindR]. apply Fin; reflexivity.
  - intros l m E Hm. rewrite Es, Eb, app_assoc in E. apply app_inj_tail in E as (_ & ->). unfold t, mk.
    assert (E1 : is_line (num:=num) end_line (PStr m) || (ncom && is_line (num:=num) hp_data_next (PStr m)) = true).
    { destruct Hm as [-> | [-> ->]].
      - assert (K : is_line (num:=num) end_line (PStr (if ncom then lit "==== Normal Comments end ====" else lit "==== Special Comments end ====")) = true)
          by (apply is_line_eq; destruct ncom; reflexivity). now rewrite K.
      - apply orb_true_iff. right. now apply is_line_eq. }
    now rewrite E1.
Qed.
(** What the conversion produces has two lines at the end of the normal
    comments; inserting keeps all markers outermost. *)
Theorem C53_insert_converted : forall num (old new : list (pyv num)), new <> [] ->
  cleanWrapComments (PStr hp_nc_start :: old ++ [PStr hp_nc_end; PStr hp_data_next]) new true RInsert
  = Ok (PStr hp_nc_start :: new ++ old ++ [PStr hp_nc_end; PStr hp_data_next]).
Proof.
  intros num old new Hn.
  destruct (C53_merge_partial num (PStr hp_nc_start :: old ++ [PStr hp_nc_end; PStr hp_data_next]) new true RInsert) as
    (s & o' & t & E & R & _ & _ & S1 & T1).
  { left. intros K. injection K as K. destruct old; discriminate. }
  rewrite R. f_equal. pose proof (S1 _ eq_refl) as ES.
  assert (ET : t = [PStr hp_data_next]).
  { apply (T1 (PStr hp_nc_start :: old ++ [PStr hp_nc_end])); [|right; split; reflexivity].
    cbn [app]. f_equal. rewrite <- app_assoc. reflexivity. }
  subst s t. cbn [app] in E |- *. change (PStr (start_mark true)) with (PStr (num:=num) hp_nc_start) in *. injection E as E. f_equal.
  change [PStr hp_nc_end; PStr hp_data_next] with ([PStr (num:=num) hp_nc_end] ++ [PStr hp_data_next]) in *.
  rewrite app_assoc in E. apply app_inj_tail in E as (<- & _). cbn [put_together]. now rewrite <- !app_assoc.
Qed.
(** Appending does not: the end line ends up before the new comments. *)
Theorem C53_extend_refuted : exists (existing new result : list (pyv whole)),
  existing = [PStr hp_nc_start; PStr (lit "old"); PStr hp_nc_end; PStr hp_data_next] /\ new = [PStr (lit "new")] /\
  cleanWrapComments existing new true RExtend = Ok result /\
  result = [PStr hp_nc_start; PStr (lit "old"); PStr hp_nc_end; PStr (lit "new"); PStr hp_data_next].
Proof. do 3 eexists. split; [reflexivity|]. split; [reflexivity|]. split; vm_compute; reflexivity. Qed.
(** A list that has only the start line: IndexError. *)
Theorem C53_start_only_refuted : forall num (new : list (pyv num)) ncom r, new <> [] ->
  cleanWrapComments [PStr (start_mark ncom)] new ncom r = Err EIndexError.
Proof. intros num [|n0 ns] ncom r Hn; [congruence|]. destruct ncom; reflexivity. Qed.
(** The counts are kept up to date, and "replace" replaces. *)
Theorem C53_override : forall num (Num : NumOps num) (d d' : na num) k new r,
  k = kSCOM \/ k = kNCOM -> d k = None \/ (exists old, d k = Some (PList old)) -> override r d (k, PList new) = Ok d' ->
  exists l, d' k = Some (PList l) /\
    d' (if key_beq k kSCOM then kNSCOML else kNNCOML) = Some (PInt (Z.of_nat (length l))) /\
    (r = RReplace -> l = new) /\
    (r <> RReplace -> d k = None -> l = new) /\
    (r <> RReplace -> forall old, d k = Some (PList old) -> cleanWrapComments old new (key_beq k kNCOM) r = Ok l) /\
    (forall k', k' <> k -> k' <> (if key_beq k kSCOM then kNSCOML else kNNCOML) -> d' k' = d k').
Proof.
  intros num Num d d' k new r Hk Hd E. unfold override in E.
  assert (Ek : negb (key_in k permitted) = false) by (destruct Hk as [-> | ->]; reflexivity). rewrite Ek in E.
  assert (Ek2 : key_in k [kDATE; kRDATE; kANAME; kVNAME] = false) by (destruct Hk as [-> | ->]; reflexivity). rewrite Ek2 in E.
  cbn [bindR] in E.
  assert (W : forall old ncom, wrapped (PList old) (PList new) ncom r = bindR (cleanWrapComments old new ncom r) (fun l => Ok (PList l))).
  { intros [|o0 old] ncom; [reflexivity|]. destruct new as [|n0 ns]; reflexivity. }
  match type of E with ?lhs = _ => assert (E' : exists l, lhs = Ok (upd (upd d k (PList l)) (if key_beq k kSCOM then kNSCOML else kNNCOML)
     (PInt (Z.of_nat (length l)))) /\ match r with
            | RReplace => Ok new
            | RInsert | RExtend => cleanWrapComments (match d k with Some (PList e) => e | _ => [] end) new (key_beq k kNCOM) r
            | ROther => Err (ENappy E_Other)
            end = Ok l) end.
  { assert (Hx : match d k with Some e => e | None => PList [] end = PList (match d k with Some (PList e) => e | _ => [] end)) by (destruct Hd as [-> | (old & ->)]; reflexivity).
    assert (Hq : match r with
      | RReplace => copied (PList new)
      | RInsert | RExtend => bindR (copied (PList new)) (fun c => wrapped (match d k with Some e => e | None => PList [] end) c (key_beq k kNCOM) r)
      | ROther => Err (ENappy E_Other) end = bindR (match r with
            | RReplace => Ok new
            | RInsert | RExtend => cleanWrapComments (match d k with Some (PList e) => e | _ => [] end) new (key_beq k kNCOM) r
            | ROther => Err (ENappy E_Other)
            end) (fun l => Ok (PList l))) by (rewrite Hx; destruct r; cbn [copied bindR]; rewrite ?W; reflexivity).
    set (m := match r with RReplace => copied (PList new) | _ => _ end) in Hq. destruct Hk as [-> | ->]; fold m in E |- *; rewrite Hq in E |- *;
      (match type of E with bindR (bindR ?n _) _ = _ => destruct n as [l|e] end; cbn [bindR as_list] in E; [|discriminate]; exists l; split; reflexivity). }
  destruct E' as (l & E1 & E2). rewrite E1 in E. injection E as <-.
  exists l.
  assert (Hkk : k <> (if key_beq k kSCOM then kNSCOML else kNNCOML)) by (destruct Hk as [-> | ->]; discriminate).
  split; [|split; [|split; [|split; [|split]]]].
  - destruct Hk as [-> | ->]; reflexivity.
  - destruct Hk as [-> | ->]; reflexivity.
  - intros ->. cbn in E2. congruence.
  - intros Hr Hn. rewrite Hn in E2. destruct r; try congruence; cbn in E2; congruence.
  - intros Hr old Ho. rewrite Ho in E2. destruct r; try congruence; cbn in E2; exact E2.
  - intros k' H1 H2. unfold upd. destruct (key_beq (if key_beq k kSCOM then kNSCOML else kNNCOML) k') eqn:K1.
    { apply internal_key_dec_bl in K1. congruence. }
    destruct (key_beq k k') eqn:K2; [apply internal_key_dec_bl in K2; congruence|reflexivity].
Qed.
Example C53_example :
  cleanWrapComments (num:=whole) [PStr hp_sc_start; PStr (lit "a"); PStr (lit "b"); PStr hp_sc_end] [PStr (lit "n")] false RInsert
  = Ok [PStr hp_sc_start; PStr (lit "n"); PStr (lit "a"); PStr (lit "b"); PStr hp_sc_end].
Proof. reflexivity. Qed.

Print Assumptions C40_partition.
Print Assumptions C40_read_back.
Print Assumptions C41_positive_partial.
Print Assumptions C41_reported_refuted.
Print Assumptions C41_zero_refuted.
Print Assumptions C41_negative_refuted.
Print Assumptions C42_distinct.
Print Assumptions C42_keeps_parts.
Print Assumptions C53_merge_partial.
Print Assumptions C53_insert_converted.
Print Assumptions C53_extend_refuted.
Print Assumptions C53_start_only_refuted.
Print Assumptions C53_override.
