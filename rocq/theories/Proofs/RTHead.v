(** Round trip: the header sections, written and read back. *)
From Coq Require Import List NArith ZArith Bool Lia.
From Verif Require Import Py.Str Py.Res Py.Num Model.Dict Model.TextParser Model.CommonUtils
  Model.NAWrite Model.NARead Spec.TextSpec Spec.Records
  Proofs.StrLemmas Proofs.NumLemmas Proofs.TextLemmas Proofs.WriteSim Proofs.RTText.
Import ListNotations.

Section RT.
Context {num : Type} `{NumOps num}.
Variable o : opts num.
Hypothesis Hann : o_annot o = false.
Hypothesis Hd : delim_ok (o_delim o).
Hypothesis Hs : str_law.
Local Notation dl := (o_delim o).
Local Notation W := (W num).
Local Notation number := (number num).

(** ** Numbers in the header *)
Definition s_of (n : number) : str := match n with NI z => dec_of_Z z | NF x => num_str x end.
Lemma fmt_s_pv n : fmt_s (pv n) = Ok (s_of n).
Proof. destruct n; reflexivity. Qed.
Lemma s_of_token n : token_ok (s_of n).
Proof. destruct n; simpl; [apply token_dec|apply Hs]. Qed.
Lemma s_of_conv n : conv TFloat (s_of n) = Ok (pv (head_num n)).
Proof.
  destruct Hs as [H1 H2]. destruct n; simpl; [now rewrite H2|]. now destruct (H1 x) as [_ ->].
Qed.
Lemma fmt_s_pvs l : mapR fmt_s (map pv l) = Ok (map s_of l).
Proof.
  rewrite (mapR_ok _ (fun v => match fmt_s v with Ok s => s | Err _ => [] end)).
  - rewrite map_map. f_equal. apply map_ext. intros n. now rewrite fmt_s_pv.
  - intros v Hi. apply in_map_iff in Hi as (n & <- & _). now rewrite fmt_s_pv.
Qed.
Lemma fmt_s_strs l : mapR (fmt_s (num:=num)) (map PStr l) = Ok l.
Proof.
  rewrite (mapR_ok _ (fun v => match v with PStr s => s | _ => [] end)).
  - rewrite map_map, map_id. reflexivity.
  - intros v Hi. apply in_map_iff in Hi as (n & <- & _). reflexivity.
Qed.
Lemma conv_s_ofs l : mapR (conv TFloat) (map s_of l) = Ok (map pv (map head_num l)).
Proof.
  apply mapR_forall2. induction l; simpl; constructor; auto. apply s_of_conv.
Qed.
Lemma s_of_tokens l : Forall token_ok (map s_of l).
Proof. apply Forall_forall. intros t Hi. apply in_map_iff in Hi as (n & <- & _). apply s_of_token. Qed.
Lemma conv_ints l : mapR (conv (num:=num) TInt) (map dec_of_Z l) = Ok (map PInt l).
Proof.
  apply mapR_forall2. induction l; simpl; constructor; auto. now rewrite int_of_str_dec.
Qed.
Lemma dec_tokens l : Forall token_ok (map dec_of_Z l).
Proof. apply Forall_forall. intros t Hi. apply in_map_iff in Hi as (n & <- & _). apply token_dec. Qed.
Lemma fmt_s_ints l : mapR (fmt_s (num:=num)) (map PInt l) = Ok (map dec_of_Z l).
Proof.
  rewrite (mapR_ok _ (fun v => match v with PInt s => dec_of_Z s | _ => [] end)).
  - rewrite map_map. reflexivity.
  - intros v Hi. apply in_map_iff in Hi as (n & <- & _). reflexivity.
Qed.

Definition num_line (l : list number) : str := join dl (map s_of l).
Lemma num_line_one_line l : one_line (num_line l).
Proof.
  apply one_line_join; [apply Hd|]. eapply Forall_impl; [|apply s_of_tokens]. intros. now apply token_one_line.
Qed.
Lemma toks_num_line l : toks (num_line l ++ nl) = map s_of l.
Proof. apply toks_join; auto using s_of_tokens, blank_nl. Qed.
Definition int_line (l : list Z) : str := join dl (map dec_of_Z l).
Lemma int_line_one_line l : one_line (int_line l).
Proof.
  apply one_line_join; [apply Hd|]. eapply Forall_impl; [|apply dec_tokens]. intros. now apply token_one_line.
Qed.
Lemma toks_int_line l : toks (int_line l ++ nl) = map dec_of_Z l.
Proof. apply toks_join; auto using dec_tokens, blank_nl. Qed.

(** ** Writing *)
Definition emits (m : W unit) (d : na num) (L : list str) (d' : na num) : Prop :=
  forall f h, m (mkW f h d) = (Ok tt, mkW f (h ++ unlines L) d').
Lemma emits_bind m k d L d1 L2 d2 : emits m d L d1 -> emits k d1 L2 d2 ->
  emits (bindW m (fun _ => k)) d (L ++ L2) d2.
Proof.
  intros H1 H2 f h. unfold bindW. rewrite H1, H2, unlines_app. now rewrite app_assoc.
Qed.

Lemma wrap_plain item line c : annotateLine o item line c = Ok line.
Proof. unfold annotateLine. now rewrite Hann. Qed.
Lemma wraps_plain item text : annotateLines o item text = Ok text.
Proof.
  unfold annotateLines. generalize 1%nat.
  assert (K : forall l n, annotate_from o item l n = Ok (concat l)).
  { induction l as [|x l IH]; intros n; simpl; auto. rewrite wrap_plain. simpl. now rewrite IH. }
  intros n. now rewrite K, splitlines_concat.
Qed.
Lemma annot_plain item c : getAnnotation o item c = Ok [].
Proof. unfold getAnnotation. now rewrite Hann. Qed.
Lemma hwrap_emits item line d : emits (hwrap o item (line ++ nl)) d [line] d.
Proof.
  intros f h. unfold hwrap, bindW, wrapLine, liftW. rewrite wrap_plain. unfold hwrite. simpl.
  now rewrite unlines_one.
Qed.
Lemma hwraps_emits item L d : emits (hwraps o item (unlines L)) d L d.
Proof.
  intros f h. unfold hwraps, bindW, wrapLines, liftW. now rewrite wraps_plain.
Qed.
Lemma hwrap_unlines_emits item L d : emits (hwrap o item (unlines L)) d L d.
Proof.
  intros f h. unfold hwrap, bindW, wrapLine, liftW. now rewrite wrap_plain.
Qed.

Lemma fmt_sep_nums z l : Z.of_nat (length l) = (z + 1)%Z -> (0 <= z)%Z ->
  fmt_sep dl z (map pv l) = Ok (num_line l ++ nl).
Proof.
  intros Hl Hz. unfold fmt_sep. rewrite map_length.
  replace (Nat.eqb (length l) (Z.to_nat z + 1)) with true by (symmetry; apply Nat.eqb_eq; lia).
  rewrite fmt_s_pvs. reflexivity.
Qed.
Lemma fmt_sep_ints z l : Z.of_nat (length l) = (z + 1)%Z -> (0 <= z)%Z ->
  fmt_sep dl z (map PInt l) = Ok (int_line l ++ nl).
Proof.
  intros Hl Hz. unfold fmt_sep. rewrite map_length.
  replace (Nat.eqb (length l) (Z.to_nat z + 1)) with true by (symmetry; apply Nat.eqb_eq; lia).
  rewrite fmt_s_ints. reflexivity.
Qed.
Lemma fmt_lines_strs l : fmt_lines (num:=num) (Z.of_nat (length l)) (map PStr l) = Ok (unlines l).
Proof.
  unfold fmt_lines. rewrite map_length, Nat2Z.id, Nat.eqb_refl, fmt_s_strs. reflexivity.
Qed.

(** Blocks of the form "fetch some attributes, format, write". *)
Lemma self_int_ok k z f h (d : na num) : attr d k = PInt z -> self_int k (mkW f h d) = (Ok z, mkW f h d).
Proof. intros E. unfold self_int, bindW, self, liftW. simpl. rewrite E. reflexivity. Qed.
Lemma self_list_ok k l f h (d : na num) : attr d k = PList l -> self_list k (mkW f h d) = (Ok l, mkW f h d).
Proof. intros E. unfold self_list, bindW, self, liftW. simpl. rewrite E. reflexivity. Qed.
Lemma emits_int_block item k z d : attr d k = PInt z ->
  emits (bindW (self k) (fun v => bindW (liftW (fmt_d v)) (fun s => hwrap o item (s ++ nl)))) d [dec_of_Z z] d.
Proof.
  intros E f h. unfold bindW at 1. unfold self. simpl w_na. rewrite E. unfold bindW at 1. simpl liftW.
  apply hwrap_emits.
Qed.
Lemma emits_sep_block item k1 k2 z l dz d : attr d k1 = PInt z -> attr d k2 = nums_pv l ->
  Z.of_nat (length l) = (z - dz + 1)%Z -> (0 <= z - dz)%Z ->
  emits (bindW (self_int k1) (fun n => bindW (self_list k2) (fun l =>
    bindW (liftW (fmt_sep dl (n - dz) l)) (fun s => hwrap o item s)))) d [num_line l] d.
Proof.
  intros E1 E2 Hl Hz f h. unfold bindW at 1. rewrite (self_int_ok k1 z) by auto.
  unfold bindW at 1. rewrite (self_list_ok k2 (map pv l)) by auto.
  unfold bindW at 1, liftW. rewrite fmt_sep_nums by auto. apply hwrap_emits.
Qed.
Lemma emits_isep_block item k1 k2 z l dz d : attr d k1 = PInt z -> attr d k2 = PList (map PInt l) ->
  Z.of_nat (length l) = (z - dz + 1)%Z -> (0 <= z - dz)%Z ->
  emits (bindW (self_int k1) (fun n => bindW (self_list k2) (fun l =>
    bindW (liftW (fmt_sep dl (n - dz) l)) (fun s => hwrap o item s)))) d [int_line l] d.
Proof.
  intros E1 E2 Hl Hz f h. unfold bindW at 1. rewrite (self_int_ok k1 z) by auto.
  unfold bindW at 1. rewrite (self_list_ok k2 (map PInt l)) by auto.
  unfold bindW at 1, liftW. rewrite fmt_sep_ints by auto. apply hwrap_emits.
Qed.
Lemma emits_lines_block item k1 k2 z l d : attr d k1 = PInt z -> attr d k2 = strs_pv l ->
  z = Z.of_nat (length l) ->
  emits (bindW (self_int k1) (fun n => bindW (self_list k2) (fun l =>
    bindW (liftW (fmt_lines n l)) (fun s => hwraps o item s)))) d l d.
Proof.
  intros E1 E2 -> f h. unfold bindW at 1. rewrite (self_int_ok k1 (Z.of_nat (length l))) by auto.
  unfold bindW at 1. rewrite (self_list_ok k2 (map PStr l)) by auto.
  unfold bindW at 1, liftW. rewrite fmt_lines_strs by auto. apply hwraps_emits.
Qed.

Lemma has_attr (d : na num) items k v : has d items -> In (k, v) items -> attr d k = v.
Proof. intros Hh Hi. unfold attr. now rewrite (Hh _ _ Hi). Qed.
Lemma has_app (d : na num) a b : has d (a ++ b) <-> has d a /\ has d b.
Proof.
  unfold has. split.
  - intros K. split; intros k v Hi; apply K, in_or_app; auto.
  - intros [K1 K2] k v Hi. apply in_app_or in Hi as [Hi|Hi]; auto.
Qed.

(** *** common section *)
Definition date_str (a : date) : str :=
  let '(x, y, z) := a in dec_of_Z x ++ lit " " ++ dec_of_Z y ++ lit " " ++ dec_of_Z z.
Definition top_line (n ffi : Z) : str := dec_of_Z n ++ dl ++ dec_of_Z ffi.
Definition common_lines (c : common) : list str :=
  [c_oname c; c_org c; c_sname c; c_mname c;
   dec_of_Z (c_ivol c) ++ dl ++ dec_of_Z (c_nvol c); date_str (c_date c) ++ dl ++ date_str (c_rdate c)].

Lemma stripQuotes_title s : title_ok s -> stripQuotes (num:=num) (PStr s) = Ok s.
Proof.
  intros (_ & Hn & Hq). unfold stripQuotes. simpl. unfold stripQuotes_str.
  destruct s as [|c t]; [congruence|].
  assert (Q : forall c', ~ is_quote_chr c' -> is_quote c' = false).
  { intros c' K. unfold is_quote. apply orb_false_iff. split; apply N.eqb_neq; intros ->; apply K; [now left|now right]. }
  rewrite (Q c) by (apply (Hq c t); auto).
  destruct (c :: t) as [|e s _] using rev_ind; [congruence|].
  unfold last_chr. rewrite rev_app_distr. simpl. rewrite (Q e) by (apply (Hq e s); auto). reflexivity.
Qed.

Lemma emits_title item k s d : attr d k = PStr s -> title_ok s ->
  emits (bindW (liftW (getAnnotation o item None)) (fun a => bindW (self k) (fun v =>
    bindW (liftW (stripQuotes v)) (fun s => hwrite (a ++ s ++ nl))))) d [s] d.
Proof.
  intros E Ht f h. unfold bindW, liftW, self. rewrite annot_plain. simpl w_na. rewrite E.
  rewrite stripQuotes_title by auto. unfold hwrite. simpl. now rewrite unlines_one.
Qed.

Lemma emits_common ffi niv c nlh d :
  has d (common_items ffi niv c) -> common_ok c -> attr d kNLHEAD = PInt nlh ->
  emits (writeCommonHeader o) d (top_line nlh ffi :: common_lines c) d.
Proof.
  intros Hh (T1 & T2 & T3 & T4 & _) Hn. unfold writeCommonHeader.
  pose proof (fun k v => has_attr d _ k v Hh) as A.
  set (tail := bindW (bindW (liftW (getAnnotation o (lit "ONAME") None)) _) _).
  assert (K : emits tail d (common_lines c) d).
  { subst tail. unfold common_lines.
    apply (emits_bind _ _ d [c_oname c] d); [apply emits_title; auto; apply A; simpl; tauto|].
    apply (emits_bind _ _ d [c_org c] d); [apply emits_title; auto; apply A; simpl; tauto|].
    apply (emits_bind _ _ d [c_sname c] d); [apply emits_title; auto; apply A; simpl; tauto|].
    apply (emits_bind _ _ d [c_mname c] d); [apply emits_title; auto; apply A; simpl; tauto|].
    apply (emits_bind _ _ d [_] d).
    - intros f h. unfold bindW, self, liftW. simpl w_na.
      rewrite (A kIVOL (PInt (c_ivol c))) by (simpl; tauto).
      rewrite (A kNVOL (PInt (c_nvol c))) by (simpl; tauto). cbn [fmt_d].
      pose proof (hwrap_emits (lit "IVOL_NVOL") (dec_of_Z (c_ivol c) ++ dl ++ dec_of_Z (c_nvol c)) d f h) as K.
      rewrite <- !app_assoc in K. exact K.
    - intros f h. unfold bindW, self, liftW. simpl w_na.
      rewrite (A kDATE (date_pv (c_date c))) by (simpl; tauto).
      rewrite (A kRDATE (date_pv (c_rdate c))) by (simpl; tauto).
      destruct (c_date c) as [[x1 y1] z1], (c_rdate c) as [[x2 y2] z2]. simpl date_pv.
      cbn [index as_list bindR nth_res nth_error of_opt fmt_d].
      match goal with |- hwrap o ?i ?s _ = _ =>
        pose proof (hwrap_emits i (date_str (x1, y1, z1) ++ dl ++ date_str (x2, y2, z2)) d f h) as K end.
      unfold date_str in *. rewrite <- !app_assoc in K. rewrite <- !app_assoc. exact K. }
  intros f h. unfold bindW at 1. unfold self at 1. simpl w_na. rewrite Hn.
  unfold bindW at 1. unfold liftW at 1. cbn [fmt_d]. unfold bindW at 1. unfold self at 1. simpl w_na.
  rewrite (A kFFI (PInt ffi)) by (simpl; tauto).
  unfold bindW at 1. unfold liftW at 1. cbn [fmt_d].
  pose proof (emits_bind _ _ d [top_line nlh ffi] d _ d (hwrap_emits (lit "NLHEAD_FFI") (top_line nlh ffi) d) K f h) as K2.
  unfold top_line in K2. rewrite <- !app_assoc in K2. exact K2.
Qed.

(** *** variables *)
Definition var_lines (vs : list (var num)) : list str :=
  [dec_of_Z (Z.of_nat (length vs)); num_line (map v_scal vs); num_line (map v_miss vs)] ++ map v_name vs.
Lemma emits_vars vs d : has d (var_items vs) -> vars_ok vs ->
  emits (writeVariablesHeaderSection o) d (var_lines vs) d.
Proof.
  intros Hh [Hn _]. pose proof (fun k v => has_attr d _ k v Hh) as A. unfold writeVariablesHeaderSection, var_lines.
  assert (Hl : (1 <= Z.of_nat (length vs))%Z) by (destruct vs; [congruence|simpl; lia]).
  apply (emits_bind _ _ d [_] d); [apply emits_int_block, A; simpl; tauto|].
  apply (emits_bind _ _ d [_] d).
  { apply (emits_sep_block _ _ _ (Z.of_nat (length vs))); try (apply A; simpl; tauto); rewrite ?map_length; lia. }
  apply (emits_bind _ _ d [_] d).
  { apply (emits_sep_block _ _ _ (Z.of_nat (length vs))); try (apply A; simpl; tauto); rewrite ?map_length; lia. }
  apply (emits_lines_block _ _ _ (Z.of_nat (length vs))); try (apply A; simpl; tauto). now rewrite map_length.
Qed.

Definition aux_lines (vs : list (var num)) : list str :=
  dec_of_Z (Z.of_nat (length vs)) ::
  match vs with [] => [] | _ => [num_line (map v_scal vs); num_line (map v_miss vs)] ++ map v_name vs end.
Lemma emits_aux vs d : has d (aux_items vs) ->
  emits (writeAuxVariablesHeaderSection o) d (aux_lines vs) d.
Proof.
  intros Hh. pose proof (fun k v => has_attr d _ k v Hh) as A. unfold writeAuxVariablesHeaderSection, aux_lines.
  assert (A0 : attr d kNAUXV = PInt (Z.of_nat (length vs))) by (apply A; simpl; tauto).
  apply (emits_bind _ _ d [_] d); [apply emits_int_block, A; simpl; tauto|].
  intros f h. unfold bindW at 1. rewrite (self_int_ok kNAUXV (Z.of_nat (length vs))) by auto.
  revert f h.
  destruct vs as [|v vs].
  - intros f h. simpl. now rewrite app_nil_r.
  - change (0 <? Z.of_nat (length (v :: vs)))%Z with true. cbv iota.
    match goal with |- forall f h, ?m _ = _ => change (emits m d ([num_line (map v_scal (v :: vs)); num_line (map v_miss (v :: vs))] ++ map v_name (v :: vs)) d) end.
    set (n := Z.of_nat (length (v :: vs))) in *. assert (Hn : (1 <= n)%Z) by (unfold n; simpl length; lia).
    apply (emits_bind _ _ d [_] d).
    { intros f h. unfold bindW at 1. rewrite (self_list_ok kASCAL (map pv (map v_scal (v :: vs)))) by (apply A; simpl; tauto).
      unfold bindW at 1, liftW. rewrite fmt_sep_nums by (rewrite ?map_length; fold n; lia). apply hwrap_emits. }
    apply (emits_bind _ _ d [_] d).
    { intros f h. unfold bindW at 1. rewrite (self_list_ok kAMISS (map pv (map v_miss (v :: vs)))) by (apply A; simpl; tauto).
      unfold bindW at 1, liftW. rewrite fmt_sep_nums by (rewrite ?map_length; fold n; lia). apply hwrap_emits. }
    { intros f h. unfold bindW at 1. rewrite (self_list_ok kANAME (map PStr (map v_name (v :: vs)))) by (apply A; simpl; tauto).
      unfold bindW at 1, liftW. replace n with (Z.of_nat (length (map v_name (v :: vs)))) by (now rewrite map_length).
      rewrite fmt_lines_strs. apply hwraps_emits. }
Qed.

Definition comment_lines (c : common) : list str :=
  dec_of_Z (Z.of_nat (length (c_scom c))) :: c_scom c ++
  dec_of_Z (Z.of_nat (length (c_ncom c))) :: c_ncom c.
Lemma emits_comments ffi niv c d : has d (common_items ffi niv c) ->
  emits (writeComments o) d (comment_lines c) d.
Proof.
  intros Hh. pose proof (fun k v => has_attr d _ k v Hh) as A. unfold writeComments, comment_lines.
  apply (emits_bind _ _ d [_] d); [apply emits_int_block, A; simpl; tauto|].
  apply (emits_bind _ _ d (c_scom c) d).
  { apply (emits_lines_block _ _ _ (Z.of_nat (length (c_scom c)))); try (apply A; simpl; tauto); auto. }
  apply (emits_bind _ _ d [_] d); [apply emits_int_block, A; simpl; tauto|].
  apply (emits_lines_block _ _ _ (Z.of_nat (length (c_ncom c)))); try (apply A; simpl; tauto); auto.
Qed.

(** *** the end of the header *)
Definition header (ffi : Z) (body : list str) : list str :=
  top_line (Z.of_nat (S (length body))) ffi :: body.
Definition closes (ffi : Z) (k : W unit) (d : na num) (body : list str) (d' : na num) : Prop :=
  forall f nlh pre, Forall one_line pre ->
    k (mkW f (unlines (top_line nlh ffi :: pre)) d) =
    (Ok tt, mkW (f ++ unlines (header ffi (pre ++ body))) (unlines (header ffi (pre ++ body))) d').
Lemma top_line_one_line n ffi : one_line (top_line n ffi).
Proof.
  unfold top_line. apply one_line_app. split; [apply dec_one_line|]. apply one_line_app. split; [apply Hd|apply dec_one_line].
Qed.
Lemma closes_end ffi d : attr d kFFI = PInt ffi ->
  closes ffi (bindW (fixHeaderLength o) (fun _ => flushHeader)) d [] d.
Proof.
  intros Hf f nlh pre Hb. unfold bindW, fixHeaderLength.
  simpl w_na. rewrite Hf. cbn [fmt_d w_head]. rewrite wrap_plain.
  assert (Ho : Forall (fun l => mem_chr c_nl l = false) (top_line nlh ffi :: pre)).
  { apply Forall_forall. intros l Hi. apply mem_chr_false. destruct Hi as [<-|Hi].
    - apply top_line_one_line.
    - rewrite Forall_forall in Hb. now apply Hb. }
  rewrite lines_unlines by auto. cbn [map length concat w_file flushHeader w_head].
  rewrite map_length. unfold flushHeader. cbn [w_file w_head w_na].
  unfold header. rewrite app_nil_r, unlines_cons. unfold top_line. rewrite dec_of_nat_Z. unfold unlines.
  now rewrite <- !app_assoc.
Qed.
Lemma closes_step ffi m k d L d1 body d2 : emits m d L d1 -> Forall one_line L ->
  closes ffi k d1 body d2 -> closes ffi (bindW m (fun _ => k)) d (L ++ body) d2.
Proof.
  intros Hm HL Hk f nlh pre Hp. unfold bindW. rewrite Hm.
  specialize (Hk f nlh (pre ++ L)). rewrite <- app_assoc in Hk. rewrite <- Hk by (apply Forall_app; auto).
  change (top_line nlh ffi :: pre ++ L) with ((top_line nlh ffi :: pre) ++ L). now rewrite unlines_app.
Qed.
Lemma closes_start ffi m k d nlh L d1 body d2 : emits m d (top_line nlh ffi :: L) d1 -> Forall one_line L ->
  closes ffi k d1 body d2 ->
  forall f, bindW m (fun _ => k) (mkW f [] d) =
    (Ok tt, mkW (f ++ unlines (header ffi (L ++ body))) (unlines (header ffi (L ++ body))) d2).
Proof. intros Hm HL Hk f. unfold bindW. rewrite Hm. exact (Hk f nlh L HL). Qed.

End RT.
