(** C134: the global attributes that are made from the header of a NASA Ames
    file. *)
From Coq Require Import List NArith ZArith Bool Lia.
From Verif Require Import Py.Str Py.Res Py.Num Py.Arith Model.Dict Model.NAWrite Model.NARead Model.NACore Spec.TextSpec
  Model.Xarray Model.Collector Model.ToXarray Spec.ToXarraySpec Spec.Binary64 Proofs.StrLemmas Proofs.NumLemmas Proofs.FloatText Proofs.ReadFrame Proofs.CollectorLemmas
  Props.ToXarrayProps Props.ToXarrayMore Props.Programs.
Import ListNotations.

(** * What is said *)
(** Attributes that are values of the header. *)
Definition copied : list (str * key) :=
  [(lit "no_of_nasa_ames_header_lines", kNLHEAD); (lit "file_format_index", kFFI); (lit "source", kSNAME); (lit "title", kMNAME);
   (lit "file_number_in_set", kIVOL); (lit "total_files_in_set", kNVOL); (lit "first_valid_date_of_data", kDATE)].
(** [t] is the number [z] in digits, at least [w] of them, with zeros in front only
    to reach [w]. *)
Definition decimal (t : str) : Z := fold_left (fun a c => (a * 10 + (Z.of_N c - 48))%Z) t 0%Z.
Definition at_least (w : nat) (z : Z) (t : str) : Prop :=
  Forall (fun c => is_digit c = true) t /\ decimal t = z /\ (w <= length t)%nat /\ (forall c r, t = c :: r -> (w < length t)%nat -> c <> 48%N).

(** * Digits *)
Lemma dec_prec_spec w z : (0 < w)%nat -> (0 <= z)%Z -> at_least w z (dec_prec w z).
Proof.
  intros Hw Hz. destruct z as [| p | p]; [| | lia].
  - unfold dec_prec, pad_zeros, at_least. change (dec_of_Z 0) with [48%N]. cbn [length].
    assert (E : repeat 48%N (w - 1) ++ [48%N] = repeat 48%N w) by (replace w with (w - 1 + 1)%nat at 2 by lia; rewrite repeat_app; reflexivity).
    rewrite E, repeat_length. change (@length N) with (@length chr) in *. repeat split; [| exact (dv_zeros w) | lia | lia].
    apply Forall_forall. intros c I. apply repeat_spec in I as ->. reflexivity.
  - unfold dec_prec, pad_zeros, at_least. destruct (dec_head p) as (c & t & E & Hc). pose proof (dec_digs p) as D. pose proof (dec_dv p) as V.
    rewrite app_length, repeat_length. change (@length N) with (@length chr). repeat split.
    + apply Forall_app. split; [apply Forall_forall; intros x I; apply repeat_spec in I as ->; reflexivity |].
      apply Forall_forall. apply forallb_forall. exact D.
    + change (dv (repeat 48%N (w - length (dec_of_Z (Zpos p))) ++ dec_of_Z (Zpos p)) = Zpos p). rewrite dv_app, dv_zeros, V. lia.
    + lia.
    + intros x r Q L. rewrite E in *. assert (N : (w - length (c :: t))%nat = 0%nat) by lia. rewrite N in Q. cbn [repeat app] in Q. injection Q as <- _. lia.
Qed.

(** * The attributes *)
Lemma set_last {A} (l : list (str * A)) k v acc : NoDup (map fst l) -> In (k, v) l -> lookup k (fold_left (fun d p => dset (fst p) (snd p) d) l acc) = Some v.
Proof.
  revert acc. induction l as [| [k' v'] t IH]; intros acc N I; [destruct I |]. cbn [map fst] in N. inversion N as [| x y N1 N2]; subst. cbn [fold_left fst snd].
  destruct I as [I | I]; [| apply IH; assumption]. injection I as -> ->. rewrite set_keeps by exact N1. apply dset_lookup.
Qed.
Lemma dset_keys {A} k (v : A) l x : In x (map fst (dset k v l)) -> x = k \/ In x (map fst l).
Proof.
  induction l as [| [k' v'] t IH]; cbn; [intros [<- | []]; auto |]. destruct (str_eqb k k') eqn:Q; cbn; intros [<- | I]; auto.
  - apply IH in I as [-> | I]; auto.
Qed.
Lemma fold_keys {A} (l : list (str * A)) x : forall acc, In x (map fst (fold_left (fun d p => dset (fst p) (snd p) d) l acc)) -> In x (map fst l) \/ In x (map fst acc).
Proof.
  induction l as [| [k v] t IH]; intros acc I; [auto |]. cbn [fold_left fst snd] in I. apply IH in I as [I | I]; [cbn; auto |]. apply dset_keys in I as [-> | I]; cbn; auto.
Qed.
Section Globals.
Context {num : Type} {Num : NumOps num} {Ar : ArithOps num}.
(** The attributes of the result are those of the dictionary. *)
Lemma globals_lookup now version (d : na num) user g o : glob_atts now version d user = Ok g -> NoDup (map fst g) -> mapNACommentsToGlobalAttributes now version d user = Ok o ->
  (forall k v, In (k, v) o -> lookup k g = Some v) /\ (forall k, lookup k g <> None -> In k (map fst o)).
Proof.
  intros G Nd R. unfold mapNACommentsToGlobalAttributes in R. rewrite G in R. cbn [bindR] in R. bindE R firsts Gf. apply Ok_inj in R. subst o.
  assert (F := mapR_Forall2 _ _ _ Gf). split.
  - intros k v I. apply in_app_iff in I as [I | I].
    + destruct (Forall2_in_r _ _ _ _ F I) as ([k0 v0] & _ & Q). cbn [fst] in Q. destruct (lookup k0 g) as [w |] eqn:W; [| discriminate Q]. injection Q as <- <-. exact W.
    + apply filter_In in I as [I _]. clear -Nd I. induction g as [| [k' v'] g IH]; [destruct I |]. cbn [map fst] in Nd. inversion Nd as [| x y N1 N2]; subst. cbn [lookup].
      destruct I as [I | I]; [injection I as -> ->; rewrite (proj2 (str_eqb_eq _ _) eq_refl); reflexivity |].
      destruct (str_eqb k k') eqn:Q; [apply str_eqb_eq in Q as ->; exfalso; apply N1; apply (in_map fst) in I; exact I | apply IH; assumption].
  - intros k L. rewrite map_app. apply in_or_app. destruct (mem_str k (map fst firsts)) eqn:M; [left; apply mem_str_in; exact M |]. right.
    destruct (lookup k g) as [v |] eqn:W; [| congruence]. apply in_map_iff. exists (k, v). split; [reflexivity |]. apply filter_In. cbn [fst]. rewrite M. split; [| reflexivity].
    clear -W. induction g as [| [k' v'] g IH]; cbn in W; [discriminate |]. destruct (str_eqb k k') eqn:Q; [apply str_eqb_eq in Q as ->; injection W as ->; left; reflexivity | right; auto].
Qed.
End Globals.
(** The attribute [k] is in the list, and has no other value in it. *)
Definition global_is {num} (l : list (str * gval num)) (k : str) (v : gval num) : Prop := In k (map fst l) /\ forall v', In (k, v') l -> v' = v.

Theorem C134_attributes : forall num (Num : NumOps num) (Ar : ArithOps num) (s : settings (num := num)) d o, toXarray s d = Ok o ->
  (forall name k, In (name, k) copied -> global_is (o_globals o) name (mkG false (attr d k))) /\
  (forall n r, attr d kONAME = PStr n -> attr d kORG = PStr r ->
     global_is (o_globals o) (lit "institution") (gstr (n ++ lit " (ONAME from NASA Ames file); " ++ r ++ lit " (ORG from NASA Ames file)."))) /\
  (exists y m dd, attr d kRDATE = PList [PInt y; PInt m; PInt dd] /\
     ((0 <= y)%Z -> (0 <= m)%Z -> (0 <= dd)%Z -> exists ty tm td, at_least 4 y ty /\ at_least 2 m tm /\ at_least 2 dd td /\
       global_is (o_globals o) (lit "history")
         (gstr (ty ++ lit "-" ++ tm ++ lit "-" ++ td ++ lit " - NASA Ames File created/revised." ++ nl ++ nl ++
                t_now s ++ lit " - Converted to Xarray (NetCDF) format using nappy-" ++ t_version s ++ lit ".")))) /\
  (forall k, In k (map fst (o_globals o)) <-> In k (map fst (t_globals s)) \/ In k mapped_names).
Proof.
  intros num Num Ar s d o R. destruct (toXarray_inv _ _ _ R) as (ffi & ren & axes & is & js & _ & _ & Hg & _).
  assert (G : exists g, glob_atts (t_now s) (t_version s) d (t_globals s) = Ok g).
  { unfold mapNACommentsToGlobalAttributes in Hg. destruct (glob_atts _ _ _ _) as [g |]; [eauto | discriminate Hg]. }
  destruct G as (g & G). pose proof G as G0. unfold glob_atts in G. cbv zeta in G. bindE G iv Hi. bindE G hv Hh. bindE G com Hc. apply Ok_inj in G.
  match type of G with fold_left _ ?l _ = _ => set (ten := l) in G end.
  assert (Nt : NoDup (map fst ten)). { unfold ten. cbn [map fst]. repeat (constructor; [cbn [In]; intuition discriminate |]). constructor. }
  assert (Ng : NoDup (map fst g)). { rewrite <- G. unfold dict_of_list. rewrite <- fold_left_app. apply dict_nodup_names. }
  destruct (globals_lookup _ _ _ _ _ _ G0 Ng Hg) as (A & B).
  assert (K : forall k v, In (k, v) ten -> global_is (o_globals o) k v).
  { intros k v I. assert (L : lookup k g = Some v) by (rewrite <- G; apply set_last; assumption). split; [apply B; congruence |]. intros v' I'. apply A in I'. congruence. }
  split; [| split; [| split]].
  - intros name k I. apply K. unfold copied in I. unfold ten. cbn [In] in I |- *. repeat (destruct I as [I | I]; [injection I as <- <-; tauto |]). destruct I.
  - intros n r En Er. apply K. unfold institution in Hi. rewrite En, Er in Hi. cbn [fmt_s bindR] in Hi. apply Ok_inj in Hi. rewrite Hi. unfold ten. cbn [In]. tauto.
  - unfold history in Hh. bindE Hh ps Hp. destruct (attr d kRDATE) as [| | | w | l]; try discriminate Hp; apply Ok_inj in Hp; subst ps.
    { exfalso. destruct w as [| c1 [| c2 [| c3 [| c4 t]]]]; discriminate Hh. }
    destruct l as [| y [| m [| dd [| z t]]]]; try discriminate Hh. bindE Hh y' Ey. bindE Hh m' Em. bindE Hh d' Ed. apply Ok_inj in Hh.
    destruct y as [| y | | |], m as [| m | | |], dd as [| dd | | |]; try discriminate Ey; try discriminate Em; try discriminate Ed.
    injection Ey as <-. injection Em as <-. injection Ed as <-. exists y, m, dd. split; [reflexivity |]. intros Py Pm Pd.
    exists (dec_prec 4 y), (dec_prec 2 m), (dec_prec 2 dd). split; [apply dec_prec_spec; [lia | exact Py] |]. split; [apply dec_prec_spec; [lia | exact Pm] |].
    split; [apply dec_prec_spec; [lia | exact Pd] |]. apply K. rewrite Hh. unfold ten. cbn [In]. tauto.
  - assert (Em : map fst ten = mapped_names) by reflexivity.
    assert (Lk : forall (l : list (str * gval num)) k, In k (map fst l) <-> lookup k l <> None).
    { clear. intros l k. induction l as [| [k' v'] l IH]; cbn; [split; [tauto | congruence] |]. destruct (str_eqb k k') eqn:Q.
      - apply str_eqb_eq in Q as ->. split; [discriminate | auto].
      - rewrite <- IH. split; [intros [-> | I]; [rewrite (proj2 (str_eqb_eq _ _) eq_refl) in Q; discriminate | exact I] | auto]. }
    intros k. split.
    + intros I. apply in_map_iff in I as ([k0 v0] & <- & I). apply A in I. cbn [fst]. assert (J : In k0 (map fst g)) by (apply Lk; congruence).
      rewrite <- G in J. unfold dict_of_list in J. rewrite <- fold_left_app in J. apply fold_keys in J as [J | []]. rewrite map_app in J. apply in_app_iff in J as [J | J]; [left; exact J | right; rewrite <- Em; exact J].
    + intros [I | I].
      * apply B. destruct (in_dec (list_eq_dec N.eq_dec) k (map fst ten)) as [J | J].
        -- apply in_map_iff in J as ([k1 v1] & Q & J). cbn [fst] in Q. subst k1. rewrite <- G, (set_last _ _ _ _ Nt J). discriminate.
        -- rewrite <- G, (set_keeps _ _ _ J). clear -I. apply in_map_iff in I as ([k0 v0] & Q & I). cbn [fst] in Q. subst k0.
           unfold dict_of_list. generalize (@nil (str * gval num)). revert I. induction (t_globals s) as [| [k1 v1] l IH]; intros I acc; [destruct I |]. cbn [fold_left fst snd].
           destruct I as [I | I]; [| apply IH; exact I]. injection I as -> ->. clear.
           assert (G : forall l (acc : list (str * gval num)), lookup k acc <> None -> lookup k (fold_left (fun d p => dset (fst p) (snd p) d) l acc) <> None).
           { clear. induction l as [| [k' v'] l IH]; intros acc H; [exact H |]. cbn [fold_left fst snd]. apply IH. destruct (str_eqb k k') eqn:Q;
               [apply str_eqb_eq in Q as ->; rewrite dset_lookup; discriminate | rewrite dset_other; [exact H | intros ->; rewrite (proj2 (str_eqb_eq _ _) eq_refl) in Q; discriminate]]. }
           apply G. rewrite dset_lookup. discriminate.
      * rewrite <- Em in I. apply in_map_iff in I as ([k1 v1] & Q & J). cbn [fst] in Q. subst k1. exact (proj1 (K _ _ J)).
Qed.
Print Assumptions C134_attributes.
Example C134_example : match converted (with_globals c61_globals) f_two with
  | Ok o => map fst (o_globals o) = map lit ["project"; "title"; "no_of_nasa_ames_header_lines"; "file_format_index"; "institution"; "source";
                                             "file_number_in_set"; "total_files_in_set"; "history"; "first_valid_date_of_data"; "comment"]%pylit /\
      lookup (lit "title") (o_globals o) = Some (gstr (lit "Mission")) /\
      lookup (lit "institution") (o_globals o) = Some (gstr (lit "A, B (ONAME from NASA Ames file); Org (ORG from NASA Ames file).")) /\
      lookup (lit "history") (o_globals o) =
        Some (gstr (lit "2000-02-02 - NASA Ames File created/revised." ++ nl ++ nl ++ lit "2024-01-01 00:00:00 - Converted to Xarray (NetCDF) format using nappy-2.0."))
  | Err _ => False
  end.
Proof. vm_compute. auto. Qed.
Example C134_digits : at_least 4 87 (lit "0087") /\ at_least 2 12 (lit "12") /\ at_least 2 100 (lit "100") /\ ~ at_least 2 100 (lit "0100").
Proof.
  unfold at_least. repeat split; try (repeat constructor); try lia; try (intros c r Q L; injection Q as <- _; vm_compute in L; try discriminate; lia).
  intros (_ & _ & _ & H). apply (H 48%N (lit "100") eq_refl); [vm_compute; lia | reflexivity].
Qed.

(** ** Names of the volumes (C40) *)
From Verif Require Model.NCWrite.
(** Volume [i] has the name of the file with the number in three digits or more
    before the ending. *)
Theorem C40_name : forall base ending i, length ending = 3%nat -> (0 <= i)%Z ->
  exists t, at_least 3 i t /\ Model.NCWrite.chunk_name (base ++ ending) i = base ++ lit "-" ++ t ++ lit ".na".
Proof.
  intros base ending i L Hi. exists (dec_prec 3 i). split; [apply dec_prec_spec; [lia | exact Hi] |].
  unfold NCWrite.chunk_name. f_equal; [| destruct i; [reflexivity | reflexivity | lia]].
  unfold slice_to. cbv zeta. change (-3 <? 0)%Z with true. cbn iota. rewrite app_length.
  replace (Z.to_nat _) with (length base); [rewrite firstn_app, firstn_all, Nat.sub_diag; apply app_nil_r |].
  change (@length N) with (@length chr) in L. lia.
Qed.
Example C40_name_example : Model.NCWrite.chunk_name (lit "a.b.na") 7 = lit "a.b-007.na" /\ at_least 3 7 (lit "007") /\ at_least 3 1000 (lit "1000").
Proof.
  split; [reflexivity |]. split; (split; [repeat constructor |]); (split; [reflexivity |]); (split; [cbn; lia |]); intros c r Q L; [cbn in L; lia |].
  injection Q as <- _. discriminate.
Qed.
Print Assumptions C40_name.
