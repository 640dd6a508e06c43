(** Round trip of FFI 2010, 3010 and 4010. *)
From Coq Require Import List NArith ZArith Bool Lia.
From Verif Require Import Py.Str Py.Res Py.Num Model.Dict Model.TextParser Model.CommonUtils
  Model.NAWrite Model.NARead Spec.TextSpec Spec.Records Spec.RoundTripSpec
  Proofs.StrLemmas Proofs.NumLemmas Proofs.TextLemmas Proofs.WriteFrame Proofs.WriteSim Proofs.RTText Proofs.RTHead Proofs.RTRead
  Proofs.RTData Proofs.RT1.
Import ListNotations.

Section RT2.
Context {num : Type} `{NumOps num}.
Variable o : opts num.
Hypothesis Hann : o_annot o = false.
Hypothesis Hd : delim_ok (o_delim o).
Hypothesis Hs : str_law.
Variable g : num -> num.
Hypothesis Hf : fmt_law (o_fmt o) g.
Local Notation dl := (o_delim o).
Local Notation number := (number num).
Local Notation nested := (nested num).
Local Notation dn := (data_num g).
Local Notation pyv := (pyv num).

(** ** Nested arrays *)
Fixpoint rows_of (dims : list nat) : nested (length dims) -> list (list number) :=
  match dims with
  | [] => fun x => [[x]]
  | d :: ds =>
      match ds return (nested (length ds) -> list (list number)) -> nested (S (length ds)) -> list (list number) with
      | [] => fun _ l => [l]
      | _ => fun f l => concat (map f l)
      end (rows_of ds)
  end.
Definition flat dims (v : nested (length dims)) : list number := concat (rows_of dims v).
Lemma flat_cons2 d d' ds (l : nested (length (d :: d' :: ds))) :
  flat (d :: d' :: ds) l = concat (map (flat (d' :: ds)) l).
Proof.
  unfold flat. cbn [rows_of length]. induction l as [|x l IH]; [reflexivity|].
  cbn [map concat]. rewrite concat_app. f_equal. exact IH.
Qed.
Lemma rows_ok dims v : dims <> [] -> Forall (fun n => 0 < n)%nat dims -> has_shape dims v ->
  rows_of dims v <> [] /\ Forall (fun r => r <> []) (rows_of dims v).
Proof.
  induction dims as [|d ds IH]; [congruence|]. intros _ Hp Hv. inversion Hp as [|? ? Hd0 Hp']; subst.
  destruct ds as [|d' ds].
  - cbn [rows_of length] in *. destruct Hv as [Hl _]. split; [discriminate|]. constructor; auto. intros ->. simpl in Hl. lia.
  - destruct Hv as [Hl Hv]. cbn [rows_of] in *. destruct v as [|x v]; [simpl in Hl; lia|].
    inversion Hv as [|? ? Hx Hv']; subst. cbn [map concat]. split.
    + destruct (IH x ltac:(discriminate) Hp' Hx) as [K _]. intros E. apply app_eq_nil in E as [E _]. contradiction.
    + apply Forall_app. split; [now apply IH|].
      clear - IH Hp' Hv'. induction Hv' as [|y l Hy Hl IHl]; [constructor|]. cbn [map concat]. apply Forall_app.
      split; auto. now apply (IH y).
Qed.
Lemma flat_length dims v : dims <> [] -> has_shape dims v -> length (flat dims v) = fold_right Nat.mul 1%nat dims.
Proof.
  induction dims as [|d ds IH]; [congruence|]. intros _ [Hl Hv]. destruct ds as [|d' ds].
  - unfold flat. cbn [rows_of concat fold_right]. rewrite app_nil_r. rewrite Hl. lia.
  - rewrite flat_cons2. cbn [fold_right]. cbn [fold_right] in IH. rewrite <- Hl. clear Hl.
    induction Hv as [|x l Hx Hl IHl]; [reflexivity|]. cbn [map concat length].
    rewrite app_length. etransitivity; [apply (f_equal2 Nat.add); [apply IH; [discriminate|exact Hx]|exact IHl]|].
    cbn [length]. lia.
Qed.
Lemma arraySize_ok l : arraySize (map Z.of_nat l) = Z.of_nat (fold_right Nat.mul 1%nat l).
Proof.
  unfold arraySize. rewrite <- (Z.mul_1_l (Z.of_nat _)). generalize 1%Z as a.
  induction l as [|n l IH]; intros a; cbn [map fold_left fold_right]; [lia|].
  rewrite IH. rewrite Nat2Z.inj_mul. lia.
Qed.
Lemma shape_map f dims (v : nested (length dims)) : has_shape dims v -> has_shape dims (nested_map f v).
Proof.
  induction dims as [|d ds IH]; [auto|]. intros [Hl Hv]. split.
  - cbn [nested_map length]. rewrite map_length. exact Hl.
  - cbn [nested_map length]. apply Forall_map. eapply Forall_impl; [|exact Hv]. exact IH.
Qed.
Lemma flat_nested_map f dims v : dims <> [] -> flat dims (nested_map f v) = map f (flat dims v).
Proof.
  induction dims as [|d ds IH]; [congruence|]. intros _. destruct ds as [|d' ds].
  - unfold flat. cbn [rows_of concat nested_map length]. now rewrite !app_nil_r.
  - rewrite !flat_cons2. rewrite concat_map, !map_map. cbn [nested_map length]. rewrite map_map. f_equal. apply map_ext.
    intros x. now apply IH.
Qed.

(** Writing. *)
Lemma index_list (l : list pyv) i x : nth_error l i = Some x -> index (PList l) i = Ok x.
Proof. intros E. unfold index, nth_res. cbn [as_list bindR]. now rewrite E. Qed.
Lemma mapR_range {B} (f : nat -> Res B) {A} (k : A -> B) (l : list A) :
  (forall i x, nth_error l i = Some x -> f i = Ok (k x)) ->
  mapR f (range (Z.of_nat (length l))) = Ok (map k l).
Proof.
  unfold range. rewrite Nat2Z.id. intros Hk. apply mapR_forall2.
  assert (K : forall l' a, (forall i x, nth_error l' i = Some x -> f (a + i)%nat = Ok (k x)) ->
    Forall2 (fun x y => f x = Ok y) (seq a (length l')) (map k l')).
  { induction l' as [|x l' IH]; intros a Ha; cbn [length seq map]; constructor.
    - specialize (Ha 0%nat x eq_refl). now rewrite Nat.add_0_r in Ha.
    - apply IH. intros i y Hi. rewrite <- (Ha (S i) y Hi). f_equal. lia. }
  apply K. exact Hk.
Qed.
Lemma cat_items_list (l : list number) :
  cat_items o (range (Z.of_nat (length l))) (fun i => index (PList (map pv l)) i) = Ok (cells o l).
Proof.
  unfold cat_items. rewrite (mapR_range _ (fun x => d_of o x ++ dl) l).
  - unfold cells. cbn [bindR]. now rewrite map_map.
  - intros i x E. rewrite (index_map pv l i x E). cbn [bindR]. apply fmt_item_pv.
Qed.
Lemma writeLines_ok dims v : dims <> [] -> has_shape dims v ->
  writeLines o (nested_pv v) (map Z.of_nat dims) = Ok (map (fun r => row o r ++ nl) (rows_of dims v)).
Proof.
  induction dims as [|d ds IH]; [congruence|]. intros _ [Hl Hv]. destruct ds as [|d' ds].
  - cbn [map writeLines rows_of nested_pv length]. rewrite <- Hl. 
    etransitivity; [apply (f_equal (fun r => bindR r _)), (cat_items_list v)|]. reflexivity.
  - cbn [map]. change (map Z.of_nat (d :: d' :: ds)) with (Z.of_nat d :: map Z.of_nat (d' :: ds)) in *.
    assert (E : forall x, writeLines o x (Z.of_nat d :: Z.of_nat d' :: map Z.of_nat ds) =
      bindR (mapR (fun i => bindR (index x i) (fun sub => writeLines o sub (map Z.of_nat (d' :: ds)))) (range (Z.of_nat d)))
        (fun lls => Ok (concat lls))) by reflexivity.
    rewrite E. rewrite <- Hl. cbn [nested_pv length].
    rewrite (mapR_range _ (fun x => map (fun r => row o r ++ nl) (rows_of (d' :: ds) x)) v).
    + cbn [bindR rows_of]. f_equal. rewrite concat_map, map_map. reflexivity.
    + intros i x Ex. pose proof (index_map (nested_pv (k := length (d' :: ds))) v i x Ex) as Ei. cbn [nested_pv length] in Ei |- *.
      rewrite Ei. cbn [bindR]. apply IH; [discriminate|].
      rewrite Forall_forall in Hv. apply Hv. eapply nth_error_In; eauto.
Qed.

(** Reading. *)
Definition elems {k} (v : nested (S k)) : list pyv := map nested_pv v.
Lemma nth_error_mid {A} (a l b : list A) i : (i < length l)%nat -> nth_error (a ++ l ++ b) (length a + i) = nth_error l i.
Proof.
  intros Hi. rewrite nth_error_app2 by lia. rewrite nth_error_app1 by lia. f_equal. lia.
Qed.
Lemma populator_ok ds : forall d (v : nested (length (d :: ds))) a b, has_shape (d :: ds) v ->
  populator (map pv (a ++ flat (d :: ds) v ++ b)) (map Z.of_nat (d :: ds)) (Z.of_nat (length a))
  = Ok (elems v, Z.of_nat (length a + length (flat (d :: ds) v))).
Proof.
  induction ds as [|d' ds IH]; intros d v a b [Hl Hv].
  - assert (Ef : flat [d] v = v) by (unfold flat; cbn [rows_of concat]; apply app_nil_r). rewrite Ef.
    cbn [map populator]. rewrite <- Hl.
    rewrite (mapR_range _ pv v).
    + cbn [bindR]. f_equal. f_equal. cbn [length] in *. lia.
    + intros i x Ex. destruct (Z.ltb_spec (Z.of_nat (length a) + Z.of_nat i) 0); [lia|].
      rewrite <- Nat2Z.inj_add, Nat2Z.id. apply nth_res_map. rewrite <- Ex. apply nth_error_mid.
      apply nth_error_Some. congruence.
  - rewrite flat_cons2.
    change (populator (map pv (a ++ concat (map (flat (d' :: ds)) v) ++ b)) (map Z.of_nat (d :: d' :: ds)) (Z.of_nat (length a)))
      with (forR (range (Z.of_nat d)) (fun _ (acc : list pyv * Z) =>
          bindR (populator (map pv (a ++ concat (map (flat (d' :: ds)) v) ++ b)) (map Z.of_nat (d' :: ds)) (snd acc))
            (fun r => Ok (fst acc ++ [PList (fst r)], snd r))) ([], Z.of_nat (length a))).
    unfold range. rewrite Nat2Z.id.
    set (F := flat (d' :: ds)).
    pose (w := (v : list (nested (length (d' :: ds))))).
    change v with w in Hl, Hv |- *. clearbody w. clear v. rename w into v.
    pose (P := fun i => (map (nested_pv (k := length (d' :: ds))) (firstn i v) : list pyv, Z.of_nat (length (a ++ concat (map F (firstn i v)))))).
    assert (Hl' : length v = d) by exact Hl.
    assert (E0 : P 0%nat = ([], Z.of_nat (length a))) by (unfold P; cbn; now rewrite app_nil_r).
    rewrite <- E0. rewrite forR_inv.
    + unfold P. subst d. rewrite firstn_all. rewrite app_length. reflexivity.
    + intros i Hi. unfold P. cbn [fst snd].
      assert (Hi' : (i < length v)%nat) by lia.
      destruct (nth_error v i) as [x|] eqn:Ex; [|apply nth_error_None in Ex; lia].
      destruct (nth_error_split v i Ex) as (v1 & v2 & Ev & Hv1).
      assert (Fi : firstn i v = v1) by (rewrite Ev, <- Hv1, firstn_app, firstn_all, Nat.sub_diag; cbn; apply app_nil_r).
      assert (Fs : firstn (S i) v = v1 ++ [x]).
      { rewrite Ev, <- Hv1. replace (S (length v1)) with (length (v1 ++ [x])) by (rewrite app_length; simpl; lia).
        change (v1 ++ x :: v2) with (v1 ++ [x] ++ v2). rewrite app_assoc. rewrite firstn_app, firstn_all, Nat.sub_diag.
        cbn. apply app_nil_r. }
      rewrite Fi, Fs.
      replace (a ++ concat (map F v) ++ b) with ((a ++ concat (map F v1)) ++ F x ++ (concat (map F v2) ++ b)).
      2:{ rewrite Ev, map_app, concat_app. cbn [map concat]. now rewrite <- !app_assoc. }
      unfold F at 2. rewrite IH.
      * cbn [bindR fst snd]. f_equal. f_equal.
        -- rewrite map_app. reflexivity.
        -- f_equal. rewrite map_app, concat_app. cbn [map concat]. rewrite app_nil_r, app_assoc, (app_length (a ++ _) (F x)). reflexivity.
      * rewrite Forall_forall in Hv. apply Hv. rewrite Ev. apply in_or_app. right. now left.
Qed.

(** ** Header *)
Lemma emits_reverse k l (d : na num) : attr d k = PList l -> emits (reverse_in_place k) d [] (upd d k (PList (rev l))).
Proof.
  intros E f h. unfold reverse_in_place, bindW, self, liftW. cbn [w_na]. rewrite E. cbn [reversed w_file w_head w_na].
  cbn [unlines map concat]. now rewrite app_nil_r.
Qed.
Lemma has_upd (d : na num) k v items : has d items -> ~ In k (map fst items) -> has (upd d k v) items.
Proof.
  intros Hh Hk k' v' Hi. unfold upd. destruct (key_beq k k') eqn:E.
  - exfalso. apply Hk. apply key_beq_true in E. subst k'. now apply (in_map fst) in Hi.
  - now apply Hh.
Qed.

Definition fam (c : cls) (k : nat) : Prop :=
  (c = C2010 /\ k = 1%nat) \/ (c = C3010 /\ k = 2%nat) \/ (c = C4010 /\ k = 3%nat).
Definition ffi_of (k : nat) : Z := (Z.of_nat (S k) * 1000 + 10)%Z.

Definition dxs (r : r2010 num) : list number := r4_dx r :: map x_dx (r4_axes r).
Definition defs (r : r2010 num) : list (list number) := map x_def (r4_axes r).
Definition xnames (r : r2010 num) : list str := r4_xname r :: map x_name (r4_axes r).
Definition body2010 (r : r2010 num) : list str :=
  common_lines o (r4_common r) ++ [num_line o (rev (dxs r))] ++
  [int_line o (rev (map Z.of_nat (r4_nx r)))] ++
  [int_line o (rev (map (fun l => Z.of_nat (length l)) (defs r)))] ++
  map (row o) (rev (defs r)) ++ rev (xnames r) ++
  var_lines o (r4_vars r) ++ aux_lines o (r4_aux r) ++ comment_lines (r4_common r).
Lemma xnames_ok r : ok2010 r -> Forall name_ok (xnames r).
Proof.
  intros (_ & _ & _ & Hx & _ & _ & _ & Hax & _). unfold xnames. constructor; auto.
  apply Forall_map. eapply Forall_impl; [|exact Hax]. intros a K. apply K.
Qed.
Lemma defs_ok r : ok2010 r -> Forall (fun l => l <> []) (defs r).
Proof.
  intros (_ & _ & _ & Hx & _ & _ & _ & Hax & _). unfold defs.
  apply Forall_map. eapply Forall_impl; [|exact Hax]. intros a K. apply K.
Qed.
Lemma body2010_one_line r : ok2010 r -> Forall one_line (body2010 r).
Proof.
  intros Hr. pose proof Hr as (Hc & Hv & Ha & Hx & _).
  unfold body2010. rewrite !Forall_app. repeat match goal with |- _ /\ _ => split end;
    auto using common_one_line, var_one_line, aux_one_line, comments_one_line.
  - constructor; auto. now apply num_line_one_line.
  - constructor; auto. now apply int_line_one_line.
  - constructor; auto. now apply int_line_one_line.
  - apply Forall_map, Forall_forall. intros l _. eapply row_ok; eauto.
  - apply names_one_line. apply Forall_rev. now apply xnames_ok.
Qed.

Lemma lstrip_row ns : ns <> [] -> lstrip (row o ns ++ nl) = row o ns ++ nl.
Proof.
  intros Hn. destruct ns as [|n ns]; [congruence|].
  assert (Ht : Forall token_ok (map (d_of o) (n :: ns))) by (eapply d_of_tokens; eauto).
  destruct (row_line_decomp dl (map (d_of o) (n :: ns)) Hd Ht) as (b & Hb & E). fold (row o (n :: ns)) in E.
  inversion Ht as [|? ? H1 _]; subst. apply token_word in H1 as [Hne Hsp].
  cbn [map concat] in E. destruct (d_of o n) as [|c t]; [congruence|].
  unfold no_sp in Hsp. cbn [forallb] in Hsp. apply andb_true_iff in Hsp as [Hc _]. apply negb_true_iff in Hc.
  destruct (row o (n :: ns)) as [|c' t'] eqn:Er.
  - cbn [app] in E. apply blank_all_sp in Hb. rewrite <- E in Hb. cbn [app all_sp forallb] in Hb.
    apply andb_true_iff in Hb as [Hb _]. congruence.
  - cbn [app] in E. injection E as <- _. cbn [app]. unfold lstrip. now apply lstrip_by_head.
Qed.

Lemma x_lines_ok r : ok2010 r ->
  mapR (x_line o (PList (map len_pv (defs r))) (PList (map nums_pv (r4_x r :: defs r))))
    (range (Z.of_nat (length (defs r)))) = Ok (map (fun l => row o l ++ nl) (defs r)).
Proof.
  intros Hr. apply mapR_range. intros i l Ei. unfold x_line.
  rewrite (index_map len_pv (defs r) i l Ei). cbn [bindR len_pv as_int].
  replace (i + 1)%nat with (S i) by lia.
  rewrite (index_map nums_pv (r4_x r :: defs r) (S i) l Ei). cbn [bindR nums_pv as_list].
  rewrite slice_to_nat. rewrite firstn_all2 by now rewrite map_length.
  rewrite map_length, Nat2Z.id, Nat.eqb_refl.
  rewrite (mapR_ok _ (fun v => match fmt_item o v with Ok s => s | Err _ => [] end)).
  - cbn [bindR]. rewrite map_map.
    rewrite (map_ext (fun x => match fmt_item o (pv x) with Ok s => s | Err _ => [] end) (fun x => d_of o x ++ dl)).
    2:{ intros x. now rewrite fmt_item_pv. }
    unfold row, row_line. now rewrite map_map.
  - intros v Hi. apply in_map_iff in Hi as (x & <- & _). now rewrite fmt_item_pv.
Qed.

Definition mid2010 (r : r2010 num) (d : na num) : na num :=
  upd (upd d kDX (PList (rev (map pv (dxs r))))) kNX (PList (rev (map PInt (map Z.of_nat (r4_nx r))))).

Lemma write2010 c r d nlh f : fam c (length (r4_nx r)) -> has d (items2010 r) -> ok2010 r -> attr d kNLHEAD = PInt nlh ->
  writeHeader o c (mkW f [] d) =
  (Ok tt, mkW (f ++ unlines (header o (ffi_of (length (r4_nx r))) (body2010 r)))
     (unlines (header o (ffi_of (length (r4_nx r))) (body2010 r))) (mid2010 r d)).
Proof.
  intros Hfam Hh Hr Hn. pose proof Hr as (Hc & Hv & Ha & Hx & Hk & Hax & _).
  pose proof (fun k v => has_attr d _ k v Hh) as A.
  set (k := length (r4_nx r)) in *. set (niv := Z.of_nat (S k)).
  set (ffi := ffi_of k).
  unfold items2010 in Hh. cbv zeta in Hh. fold k in Hh. fold niv in Hh.
  change (niv * 1000 + 10)%Z with ffi in Hh.
  apply has_app in Hh as [Hh1 Hh]. apply has_app in Hh as [Hh2 Hh].
  apply has_app in Hh as [Hh3 Hh].
  pose proof (fun k v => has_attr d _ k v Hh) as A1. pose proof (fun k v => has_attr d _ k v Hh1) as A2.
  set (d1 := upd d kDX (PList (rev (map pv (dxs r))))). set (d2 := mid2010 r d).
  assert (Ew : writeHeader o c = writeHeader_2010 o) by (destruct Hfam as [[-> _]|[[-> _]|[-> _]]]; reflexivity).
  rewrite Ew. clear Ew Hfam. unfold writeHeader_2010, body2010.
  assert (Niv : attr d kNIV = PInt niv) by (apply A2; simpl; tauto).
  assert (NX : attr d kNX = PList (map PInt (map Z.of_nat (r4_nx r)))).
  { rewrite map_map. apply A1. simpl; tauto. }
  assert (DX : attr d kDX = PList (map pv (dxs r))) by (apply A1; simpl; tauto).
  eapply (closes_start o ffi).
  - apply (emits_common o Hann ffi niv); eauto.
  - now apply common_one_line.
  - eapply (closes_step o ffi _ _ d [] d1); [now apply emits_reverse|constructor|].
    apply (closes_step o ffi _ _ d1 [_] d1).
    { apply (emits_sep_block o Hann _ _ _ niv (rev (dxs r))).
      - exact Niv.
      - unfold d1. change (PList (rev (map pv (dxs r))) = nums_pv (rev (dxs r))). unfold nums_pv. now rewrite map_rev.
      - rewrite rev_length. unfold dxs. cbn [length]. rewrite map_length, Hax. unfold niv. lia.
      - unfold niv. lia. }
    { constructor; auto. now apply num_line_one_line. }
    eapply (closes_step o ffi _ _ d1 [] d2).
    { unfold d2, mid2010. apply emits_reverse. exact NX. }
    { constructor. }
    apply (closes_step o ffi _ _ d2 [_] d2).
    { apply (emits_isep_block o Hann _ _ _ niv).
      - exact Niv.
      - unfold d2, mid2010. change (PList (rev (map PInt (map Z.of_nat (r4_nx r)))) = PList (map (@PInt num) (rev (map Z.of_nat (r4_nx r))))).
        now rewrite map_rev.
      - rewrite rev_length, map_length. fold k. unfold niv. lia.
      - unfold niv. lia. }
    { constructor; auto. now apply int_line_one_line. }
    assert (ND : attr d2 kNXDEF = PList (map len_pv (defs r))).
    { change (attr d kNXDEF = PList (map len_pv (defs r))). unfold defs. rewrite map_map. apply A1; simpl; tauto. }
    apply (closes_step o ffi _ _ d2 [_] d2).
    { intros f' h'. unfold bindW at 1. rewrite (self_int_ok kNIV niv) by exact Niv.
      unfold bindW at 1. rewrite (self_list_ok kNXDEF _ _ _ _ ND).
      unfold bindW at 1, liftW.
      replace (rev (map len_pv (defs r))) with (map (@PInt num) (rev (map (fun l => Z.of_nat (length l)) (defs r)))).
      2:{ rewrite map_rev. f_equal. now rewrite map_map. }
      rewrite fmt_sep_ints; [now apply hwrap_emits| |].
      - rewrite rev_length, map_length. unfold defs. rewrite map_length, Hax. unfold niv. lia.
      - unfold niv. lia. }
    { constructor; auto. now apply int_line_one_line. }
    apply (closes_step o ffi _ _ d2 (map (row o) (rev (defs r))) d2).
    { intros f' h'. unfold bindW at 1. rewrite (self_int_ok kNIV niv) by exact Niv.
      unfold bindW at 1. rewrite (wself_ok kNXDEF _ _ _ _ ND).
      unfold bindW at 1. rewrite (wself_ok kX (PList (map nums_pv (r4_x r :: defs r)))).
      2:{ change (attr d kX = PList (map nums_pv (r4_x r :: defs r))). unfold defs.
          apply A1. simpl; tauto. }
      unfold bindW at 1, liftW.
      replace (niv - 1)%Z with (Z.of_nat (length (defs r))) by (unfold defs; rewrite map_length, Hax; unfold niv; lia).
      rewrite x_lines_ok by auto. rewrite <- map_rev.
      pose proof (Forall_rev (defs_ok r Hr)) as Hne. revert h'. generalize dependent (rev (defs r)).
      induction 1 as [|l ls Hl Hls IH]; intros h'; cbn [map forW].
      - cbn [unlines map concat]. rewrite app_nil_r. reflexivity.
      - unfold bindW at 1. rewrite lstrip_row by auto. rewrite hwrap_emits by auto. rewrite IH.
        rewrite unlines_one, unlines_cons. now rewrite <- !app_assoc. }
    { apply Forall_map, Forall_forall. intros l _. eapply row_ok; eauto. }
    apply (closes_step o ffi _ _ d2 (rev (xnames r)) d2).
    { intros f' h'. unfold bindW at 1. rewrite (self_int_ok kNIV niv) by exact Niv.
      unfold bindW at 1. rewrite (self_list_ok kXNAME (map PStr (xnames r))).
      2:{ change (attr d kXNAME = PList (map PStr (xnames r))). apply A1. simpl; tauto. }
      unfold bindW at 1, liftW. rewrite <- map_rev.
      replace niv with (Z.of_nat (length (rev (xnames r)))).
      2:{ rewrite rev_length. unfold xnames. cbn [length]. rewrite map_length, Hax. reflexivity. }
      rewrite fmt_lines_strs. now apply hwraps_emits. }
    { apply names_one_line. apply Forall_rev. now apply xnames_ok. }
    assert (P : forall items, has d items -> ~ In kDX (map fst items) -> ~ In kNX (map fst items) -> has d2 items).
    { intros items K1 K2 K3. unfold d2, mid2010. apply has_upd; auto. apply has_upd; auto. }
    apply (closes_step o ffi _ _ d2 _ d2).
    { apply emits_vars; auto. apply P; auto; simpl; intuition discriminate. } { now apply var_one_line. }
    apply (closes_step o ffi _ _ d2 _ d2).
    { apply emits_aux; auto. apply P; auto; unfold aux_items; destruct (r4_aux r); simpl; intuition discriminate. }
    { now apply aux_one_line. }
    rewrite <- (app_nil_r (comment_lines _)).
    apply (closes_step o ffi _ _ d2 _ d2).
    { apply (emits_comments o Hann ffi niv). apply P; auto; simpl; intuition discriminate. }
    { now apply comments_one_line. }
    apply closes_end; auto. change (attr d kFFI = PInt ffi). apply A2; simpl; tauto.
Qed.

(** ** Reading the header *)
Definition read2010 (n : Z) (r : r2010 num) : na num :=
  upd_comments (r4_common r) (upd_aux (map norm_var (r4_aux r)) (upd_vars (map norm_var (r4_vars r))
    (upd (upd (upd (upd (upd (upd_common n (ffi_of (length (r4_nx r))) (r4_common r) na_new)
      kDX (nums_pv (map head_num (dxs r))))
      kNX (PList (map PInt (map Z.of_nat (r4_nx r)))))
      kNXDEF (PList (map len_pv (defs r))))
      kX (PList (PList [] :: map nums_pv (map (map dn) (defs r)))))
      kXNAME (strs_pv (xnames r))))).
Lemma eats_axes ls : forall d, Forall (fun l : list number => l <> []) ls ->
  eats (read_axes (map len_pv ls)) d (map (row o) ls) d (map nums_pv (map (map dn) ls)).
Proof.
  induction ls as [|l ls IH]; intros d Hl; [intros rest; reflexivity|]. inversion Hl; subst.
  cbn [map read_axes].
  apply (eats_bind _ _ d [] d (Z.of_nat (length l)) (row o l :: map (row o) ls)); [now apply eats_lift|].
  apply (eats_bind _ _ d [row o l] d (map pv (map dn l)) (map (row o) ls)).
  - apply (eats_items_unknown _ _ _ (map (d_of o) l)).
    + eapply toks_row_nl; eauto.
    + destruct l; [congruence|discriminate].
    + now rewrite map_length.
    + now apply conv_d_ofs.
  - rewrite <- (app_nil_r (map (row o) ls)).
    eapply eats_bind; [apply IH; auto|]. intros rest. reflexivity.
Qed.
Lemma quot_ffi k : Z.quot (ffi_of k) 1000 = Z.of_nat (S k).
Proof.
  unfold ffi_of. rewrite Z.quot_div_nonneg by lia. rewrite Z.div_add_l by lia. change (10 / 1000)%Z with 0%Z. lia.
Qed.
Lemma rev_map_rev {A B} (f : A -> B) l : rev (map f (rev l)) = map f l.
Proof. now rewrite <- map_rev, rev_involutive. Qed.
Lemma rev_map_rev2 {A B C} (f : A -> B) (h : B -> C) l : rev (map h (map f (rev l))) = map h (map f l).
Proof. now rewrite <- !map_rev, rev_involutive. Qed.
Lemma eats2010 c r : fam c (length (r4_nx r)) -> ok2010 r -> palindromic_def r ->
  eats (readHeader c 0) na_new (header o (ffi_of (length (r4_nx r))) (body2010 r))
    (read2010 (Z.of_nat (S (length (body2010 r)))) r) tt.
Proof.
  intros Hfam Hr Hp. pose proof Hr as (Hc & Hv & Ha & Hx & Hk & Hax & _).
  assert (Er : readHeader (num:=num) c 0 = readHeader_2010 0) by (destruct Hfam as [[-> _]|[[-> _]|[-> _]]]; reflexivity).
  rewrite Er. clear Er Hfam.
  unfold header. set (n := Z.of_nat (S _)). clearbody n.
  set (k := length (r4_nx r)) in *.
  unfold body2010, read2010. fold k. unfold readHeader_2010.
  rewrite app_comm_cons.
  eapply (eats_seq _ _ _ (_ :: common_lines o _)); [eapply (eats_common dl); auto|].
  set (d0 := upd_common n (ffi_of k) (r4_common r) na_new).
  assert (N0 : attr d0 kNIV = PInt (Z.of_nat (S k))) by (rewrite <- (quot_ffi k); reflexivity).
  eapply (eats_bind _ _ _ [] _ (Z.of_nat (S k))); [now apply eats_get_int|].
  eapply (eats_seq _ _ _ [_]).
  { apply (eats_set_list _ (fun l => PList (rev l))). apply (eats_num_line dl Hd Hs o eq_refl (rev (dxs r))).
    - intros K. apply (f_equal (@length _)) in K. rewrite rev_length in K. discriminate.
    - rewrite rev_length. unfold dxs. cbn [length]. now rewrite map_length, Hax. }
  cbv beta. rewrite ?rev_map_rev2, ?rev_map_rev. fold (nums_pv (map head_num (dxs r))).
  set (d1 := upd d0 kDX _).
  eapply (eats_seq _ _ _ [_]).
  { apply (eats_set_list _ (fun l => PList (rev l))). apply (eats_int_line dl Hd o eq_refl (rev (map Z.of_nat (r4_nx r)))).
    - intros K. apply (f_equal (@length _)) in K. rewrite rev_length, map_length in K. fold k in K. simpl in K. lia.
    - rewrite rev_length, map_length. fold k. lia. }
  cbv beta. rewrite ?rev_map_rev2, ?rev_map_rev. set (d2 := upd d1 kNX _).
  eapply (eats_seq _ _ _ [_]).
  { apply (eats_set_list _ (fun l => PList (rev l))).
    apply (eats_int_line dl Hd o eq_refl (rev (map (fun l => Z.of_nat (length l)) (defs r)))).
    - intros K. apply (f_equal (@length _)) in K. rewrite rev_length, map_length in K. unfold defs in K.
      rewrite map_length in K. simpl in K. lia.
    - rewrite rev_length, map_length. unfold defs. rewrite map_length. lia. }
  cbv beta. rewrite ?rev_map_rev2, ?rev_map_rev.
  rewrite (map_map (fun l : list number => Z.of_nat (length l)) PInt (defs r)).
  change (map (fun x : list number => PInt (Z.of_nat (length x))) (defs r)) with (map (@len_pv num _) (defs r)).
  set (d3 := upd d2 kNXDEF _).
  eapply (eats_seq _ _ _ (map (row o) (rev (defs r)))).
  { eapply (eats_bind _ _ _ [] _ (map len_pv (defs r))); [apply eats_get_list; reflexivity|].
    apply (eats_set_list _ (fun ls => PList (PList [] :: rev ls))).
    replace (firstn (Z.to_nat (Z.of_nat (S k) - 1)) (map len_pv (defs r))) with (map (@len_pv num _) (rev (defs r))).
    2:{ rewrite firstn_all2 by (rewrite map_length; unfold defs; rewrite map_length; lia).
        unfold palindromic_def in Hp.
        apply (f_equal (map (fun n => @PInt num (Z.of_nat n)))) in Hp. rewrite <- !map_rev, !map_map in Hp.
        unfold defs. rewrite <- map_rev, !map_map. exact Hp. }
    apply eats_axes. apply Forall_rev. now apply defs_ok. }
  cbv beta. rewrite ?rev_map_rev2, ?rev_map_rev. set (d4 := upd d3 kX _).
  eapply (eats_seq _ _ _ (rev (xnames r))).
  { apply (eats_set_list _ (fun l => PList (rev l))). apply eats_names; [apply Forall_rev; now apply xnames_ok|].
    rewrite rev_length. unfold xnames. cbn [length]. now rewrite map_length, Hax. }
  cbv beta. rewrite ?rev_map_rev2, ?rev_map_rev.
  eapply (eats_seq _ _ _ (var_lines o _)); [eapply (eats_vars dl); auto|].
  eapply (eats_seq _ _ _ (aux_lines o _)); [eapply (eats_aux dl); auto|].
  apply eats_comments.
Qed.

(** ** Data *)
Definition blk (nx : list nat) (m : nat) (v : list (nested (length nx))) : list (list number) :=
  match nth_error v m with Some w => rows_of nx w | None => [] end.
Definition vst (k : nat) (m : nat) (vs : list (list (nested k))) : list pyv :=
  map (fun v => PList (map nested_pv (firstn m v))) vs.
Lemma firstn_S_nth {A} (l : list A) m x : nth_error l m = Some x -> firstn (S m) l = firstn m l ++ [x].
Proof.
  revert m. induction l as [|y l IH]; intros [|m] E; simpl in *; try discriminate; [now injection E as ->|].
  f_equal. now apply IH.
Qed.
Lemma skipn_nth {A} (l : list A) m x : nth_error l m = Some x -> skipn m l = x :: skipn (S m) l.
Proof.
  revert m. induction l as [|y l IH]; intros [|m] E; simpl in *; try discriminate; [now injection E as ->|]. now apply IH.
Qed.
Lemma length_firstn_nth {A} (l : list A) m x : nth_error l m = Some x -> length (firstn m l) = m.
Proof. intros E. rewrite firstn_length. assert (m < length l)%nat by (apply nth_error_Some; congruence). lia. Qed.

Lemma readData1_2010_ok h m rest xs axes as_ V nx : attr h kNAUXV = PInt (Z.of_nat (length as_)) ->
  (m < length xs)%nat -> Forall (fun c => m < length c)%nat as_ ->
  readData1_2010 h (nls [row o (at_ m xs :: col m as_)] ++ rest) m
    (mkD (nums_pv (firstn m (map dn xs)) :: axes) V (pre m (map (map dn) as_)) nx []) =
  Ok (mkD (nums_pv (firstn (S m) (map dn xs)) :: axes) V (pre (S m) (map (map dn) as_)) nx [], rest).
Proof.
  intros En Hm Ha. unfold readData1_2010, h_int. rewrite En. cbn [as_int bindR].
  rewrite (items_row o Hd g Hf); [|discriminate|cbn [length]; unfold col; rewrite map_length; lia].
  cbn [bindR map]. unfold nth_res at 1. cbn [nth_error of_opt bindR skipn d_A d_X modify_nth].
  unfold nums_pv at 1. cbn [app_item bindR].
  rewrite <- col_map by auto. rewrite <- (map_length (map dn) as_).
  rewrite append_each_ok by now apply lens_map.
  cbn [bindR]. unfold set_A, set_X. cbn [d_X d_V d_A d_NX d_DX].
  rewrite firstn_at by now rewrite map_length. rewrite at_map by auto. unfold nums_pv. now rewrite map_app.
Qed.

Lemma readData2_2010_ok h m rest X A nx vs : attr h kNV = PInt (Z.of_nat (length vs)) ->
  vs <> [] -> nx <> [] -> Forall (fun n => 0 < n)%nat nx ->
  Forall (fun v => m < length v /\ Forall (has_shape nx) v)%nat vs ->
  readData2_2010 h (nls (concat (map (fun v => map (row o) (blk nx m v)) vs)) ++ rest) m
    (mkD X (vst _ m (map (map (nested_map dn)) vs)) A (map PInt (map Z.of_nat nx)) []) =
  Ok (mkD X (vst _ (S m) (map (map (nested_map dn)) vs)) A (map PInt (map Z.of_nat nx)) [], rest).
Proof.
  intros En Hne Hnx Hpos Hvs. unfold readData2_2010, h_int. rewrite En. cbn [as_int bindR d_NX].
  assert (E : mapR (as_int (num:=num)) (map PInt (map Z.of_nat nx)) = Ok (map Z.of_nat nx)).
  { rewrite (mapR_ok _ (fun v => match v with PInt z => z | _ => 0%Z end)).
    - now rewrite !map_map.
    - intros v Hi. apply in_map_iff in Hi as (z & <- & _). reflexivity. }
  rewrite E. cbn [bindR]. clear E.
  destruct (Z.leb_spec (Z.of_nat (length vs)) 0) as [K|_]; [destruct vs; [congruence|simpl in K; lia]|].
  cbn [d_V]. set (vs' := map (map (nested_map dn)) vs).
  pose (P := fun i => (firstn i (vst _ (S m) vs') ++ skipn i (vst _ m vs'),
     nls (concat (map (fun v => map (row o) (blk nx m v)) (skipn i vs))) ++ rest)).
  match goal with |- bindR (forR _ ?body _) _ = _ => assert (E : forR (range (Z.of_nat (length vs))) body (P 0%nat) = Ok (P (length vs))) end.
  { unfold range. rewrite Nat2Z.id. apply (forR_inv _ P). intros i Hi. unfold P. cbn [fst snd].
    destruct (nth_error vs i) as [v|] eqn:Ev; [|apply nth_error_None in Ev; lia].
    assert (Hv : In v vs) by (eapply nth_error_In; eauto). rewrite Forall_forall in Hvs.
    destruct (Hvs v Hv) as [Hm Hsh]. destruct (nth_error v m) as [w|] eqn:Ew; [|apply nth_error_None in Ew; lia].
    assert (Hw : has_shape nx w) by (rewrite Forall_forall in Hsh; apply Hsh; eapply nth_error_In; eauto).
    assert (Ev' : nth_error vs' i = Some (map (nested_map dn) v)) by (unfold vs'; now rewrite nth_error_map, Ev).
    assert (Ew' : nth_error (map (nested_map dn) v) m = Some (nested_map dn w)) by now rewrite nth_error_map, Ew.
    rewrite (skipn_nth vs i v Ev). cbn [map concat]. rewrite nls_app, <- app_assoc.
    unfold blk at 1. rewrite Ew. destruct (rows_ok nx w Hnx Hpos Hw) as [R1 R2].
    rewrite (items_rows o Hd g Hf) by (auto; rewrite arraySize_ok, <- (flat_length nx w); auto).
    cbn [bindR]. fold (flat nx w).
    assert (E1 : nth_error (vst (length nx) m vs') i = Some (PList (map nested_pv (firstn m (map (nested_map dn) v)))))
      by (unfold vst; now rewrite nth_error_map, Ev').
    assert (E2 : nth_error (vst (length nx) (S m) vs') i = Some (PList (map nested_pv (firstn (S m) (map (nested_map dn) v)))))
      by (unfold vst; now rewrite nth_error_map, Ev').
    rewrite (skipn_nth _ _ _ E1), (firstn_S_nth _ _ _ E2).
    assert (Hfi : length (firstn i (vst (length nx) (S m) vs')) = i) by (eapply length_firstn_nth; eauto).
    set (L1 := firstn i (vst (length nx) (S m) vs')) in *. set (L2 := skipn (S i) (vst (length nx) m vs')).
    rewrite <- Hfi at 1. rewrite modify_nth_app. cbn [app_item bindR].
    destruct nx as [|n0 nx]; [congruence|].
    pose proof (populator_ok nx n0 (nested_map dn w) [] [] (shape_map dn _ w Hw)) as Ep.
    cbn [app length] in Ep. rewrite app_nil_r in Ep. rewrite flat_nested_map in Ep by discriminate.
    change (Z.of_nat 0) with 0%Z in Ep. rewrite Ep. cbn [bindR fst].
    rewrite <- Hfi. rewrite modify_nth_app. cbn [modify_in].
    assert (Hfm : length (map (nested_pv (k := length (n0 :: nx))) (firstn m (map (nested_map dn) v))) = m).
    { rewrite map_length. eapply length_firstn_nth; eauto. }
    rewrite <- Hfm at 2. rewrite modify_nth_app. cbn [bindR app].
    rewrite (firstn_S_nth _ _ _ Ew'), map_app. rewrite <- app_assoc. reflexivity. }
  unfold P in E. cbn [firstn skipn app] in E. rewrite E. cbn [bindR fst snd].
  rewrite skipn_all2 by (unfold vst, vs'; rewrite !map_length; lia).
  rewrite firstn_all2 by (unfold vst, vs'; rewrite !map_length; lia).
  rewrite skipn_all. cbn [map concat nls app]. rewrite app_nil_r. reflexivity.
Qed.

Lemma wrapped_rows rs d :
  emitd (forW (map (fun r => row o r ++ nl) rs) (fun line => bindW (wrapLine o (lit "Data") line) (fun s => fwrite s))) d
    (map (row o) rs).
Proof.
  induction rs as [|r rs IH]; cbn [map forW].
  - intros f h. cbn. now rewrite app_nil_r.
  - apply (emitd_bind _ _ d [_] _); [|exact IH]. intros f h. unfold bindW, wrapLine, liftW.
    rewrite wrap_plain by auto. unfold fwrite. cbn [w_file w_head w_na]. now rewrite unlines_one.
Qed.

Definition lines2010 (r : r2010 num) : list str :=
  header o (ffi_of (length (r4_nx r))) (body2010 r) ++ concat (map (fun m => [row o (at_ m (r4_x r) :: col m (r4_a r))] ++ concat (map (fun v => map (row o) (blk (r4_nx r) m v)) (r4_v r))) (seq 0 (length (r4_x r)))).
Theorem rt2010_as c r d nlh : fam c (length (r4_nx r)) -> ok2010 r -> palindromic_def r ->
  has d (items2010 r) -> attr d kNLHEAD = PInt nlh ->
  comes_back_as o c d (items2010 (norm2010 g r)) (lines2010 r).
Proof.
  intros Hfam Hr Hp Hh Hn. pose proof (fun k v => has_attr d _ k v Hh) as A.
  pose proof Hr as (Hc & Hv & Ha & Hx & Hk & Hax & Hpos & _ & Hl1 & Hl2 & Hl3 & Hl4).
  set (n := Z.of_nat (S (length (body2010 r)))). set (M := length (r4_x r)) in *.
  set (dr := read2010 n r).
  assert (Hnx : (r4_nx r) <> []) by (intros K; rewrite K in Hk; simpl in Hk; lia).
  assert (Hla : forall m, (m < M)%nat -> Forall (fun c => m < length c)%nat (r4_a r)) by (intros m; now apply lens_lt).
  assert (Hlv : forall m, (m < M)%nat -> Forall (fun v => m < length v /\ Forall (has_shape (r4_nx r)) v)%nat (r4_v r)).
  { intros m Hm. eapply Forall_impl; [|exact Hl4]. intros v [-> K]. auto. }
  assert (Hvne : r4_v r <> []) by (intros K; rewrite K in Hl2; destruct Hv as [Hv _]; now destruct (r4_vars r)).
  assert (Nv : attr dr kNV = PInt (Z.of_nat (length (r4_v r)))).
  { apply (attr_len dr kNV (map norm_var (r4_vars r))); [unfold dr, read2010, upd_aux; now destruct (map norm_var (r4_aux r))|now rewrite map_length]. }
  assert (Na : attr dr kNAUXV = PInt (Z.of_nat (length (r4_a r)))).
  { apply (attr_len dr kNAUXV (map norm_var (r4_aux r))); [unfold dr, read2010, upd_aux; now destruct (map norm_var (r4_aux r))|now rewrite map_length]. }
  assert (Nx : attr dr kNX = PList (map PInt (map Z.of_nat (r4_nx r)))).
  { unfold dr, read2010, upd_aux; now destruct (map norm_var (r4_aux r)). }
  assert (NX : attr dr kX = PList (PList [] :: map nums_pv (map (map dn) (defs r)))).
  { unfold dr, read2010, upd_aux; now destruct (map norm_var (r4_aux r)). }
  assert (S1 : setupArrays dr c = setup_2010 dr /\ readData1 dr c = readData1_2010 dr /\ readData2 dr c = readData2_2010 dr
    /\ writeData o c = writeData_2010 o /\ getNAFileClass (ffi_of (length (r4_nx r))) = Ok c
    /\ forall s, store dr c s = store dr C2010 s).
  { destruct Hfam as [[-> ->]|[[-> ->]|[-> ->]]]; repeat split; reflexivity. }
  destruct S1 as (S1 & S2 & S3 & S4 & S5 & S6).
  apply (comes_back_intro o Hd c d (ffi_of (length (r4_nx r))) (body2010 r) (mid2010 r d)
    (upd (mid2010 r d) kNX (PList (map PInt (map Z.of_nat (r4_nx r))))) dr _
    (fun m => [row o (at_ m (r4_x r) :: col m (r4_a r))] ++ concat (map (fun v => map (row o) (blk (r4_nx r) m v)) (r4_v r)))
    (fun m => mkD (nums_pv (firstn m (map dn (r4_x r))) :: map nums_pv (map (map dn) (defs r)))
       (vst _ m (map (map (nested_map dn)) (r4_v r))) (pre m (map (map dn) (r4_a r))) (map PInt (map Z.of_nat (r4_nx r))) []) M).
  - intros f. eapply write2010; eauto.
  - rewrite S4. unfold writeData_2010. set (d3 := upd (mid2010 r d) kNX _).
    intros f h. unfold bindW at 1. rewrite (emits_reverse kNX (rev (map PInt (map Z.of_nat (r4_nx r))))) by reflexivity.
    rewrite rev_involutive. fold d3. cbn [unlines map concat]. rewrite app_nil_r. revert f h.
    assert (A3 : forall k, k <> kDX -> k <> kNX -> attr d3 k = attr d k).
    { intros k K1 K2. destruct k; try reflexivity; congruence. }
    assert (N3 : attr d3 kNX = PList (map PInt (map Z.of_nat (r4_nx r)))) by reflexivity. 
    clearbody d3.
    assert (A1 : forall k v, In (k, v) [(kX, PList (map nums_pv (r4_x r :: map x_def (r4_axes r)))); (kA, PList (map nums_pv (r4_a r)));
      (kV, PList (map (fun v => PList (map nested_pv v)) (r4_v r))); (kNAUXV, PInt (Z.of_nat (length (r4_aux r)))); (kNV, PInt (Z.of_nat (length (r4_vars r))))] -> attr d3 k = v).
    { intros k v Hi. rewrite A3; [|intros ->; simpl in Hi; intuition discriminate|intros ->; simpl in Hi; intuition discriminate].
      apply A. unfold items2010. cbv zeta. rewrite !in_app_iff. simpl in Hi |- *. tauto. }
    match goal with |- forall f h, _ = (Ok tt, mkW (f ++ unlines ?L) h d3) =>
      match goal with |- forall f h, ?m _ = _ => change (emitd m d3 L) end end.
    eapply emitd_self; [apply A1; simpl; tauto|].
    eapply emitd_lift; [reflexivity|].
    eapply (emitd_lift (range_len _)); [reflexivity|]. rewrite map_length. fold M.
    apply emitd_for. intros m Hm. apply in_seq in Hm.
    apply (emitd_bind _ _ d3 [_] _).
    { apply emitd_x_aux; auto; try (apply A1; simpl; tauto); [apply index_nums; fold M; lia| |apply Hla; lia].
      rewrite Hl1. apply A1. simpl. tauto. }
    eapply emitd_self_int; [apply A1; simpl; tauto|].
    replace (concat (map (fun v => map (row o) (blk (r4_nx r) m v)) (r4_v r)))
      with (concat (map (fun n => map (row o) (blk (r4_nx r) m (nth n (r4_v r) []))) (range (Z.of_nat (length (r4_vars r)))))).
    2:{ rewrite <- Hl2. unfold range. rewrite Nat2Z.id. f_equal. generalize (r4_v r).
        induction l as [|v l IH]; cbn [length seq map nth]; [reflexivity|]. f_equal. rewrite <- seq_shift, map_map. exact IH. }
    apply emitd_for. intros k Hk'. unfold range in Hk'. rewrite Nat2Z.id, <- Hl2 in Hk'. apply in_seq in Hk'.
    set (v := nth k (r4_v r) []).
    assert (Ev : nth_error (r4_v r) k = Some v) by (apply nth_error_nth'; apply Hk').
    assert (Hvk : In v (r4_v r)) by (eapply nth_error_In; eauto).
    pose proof (Hlv m ltac:(lia)) as K. rewrite Forall_forall in K. destruct (K v Hvk) as [Hm' Hsh]. clear K.
    destruct (nth_error v m) as [w|] eqn:Ew; [|exfalso; apply nth_error_None in Ew; exact (Nat.lt_irrefl _ (Nat.lt_le_trans _ _ _ Hm' Ew))].
    assert (Hw : has_shape (r4_nx r) w) by (rewrite Forall_forall in Hsh; apply Hsh; eapply nth_error_In; eauto).
    unfold blk. rewrite Ew.
    eapply emitd_self; [apply A1; simpl; tauto|].
    eapply emitd_lift.
    { unfold index2. rewrite (index_map (fun v => PList (map nested_pv v)) (r4_v r) k v Ev). cbn [bindR].
      apply (index_map nested_pv v m w Ew). }
    eapply emitd_self_list; [exact N3|].
    eapply (emitd_lift (ints_of _) (map Z.of_nat (r4_nx r))).
    { unfold ints_of. rewrite (mapR_ok _ (fun v => match v with PInt z => z | _ => 0%Z end)).
      - now rewrite !map_map.
      - intros v0 Hi. apply in_map_iff in Hi as (z & <- & _). reflexivity. }
    eapply emitd_lift; [now apply writeLines_ok|]. apply wrapped_rows.
  - now apply body2010_one_line.
  - exact S5.
  - now apply eats2010.
  - unfold dr, read2010, upd_aux; now destruct (map norm_var (r4_aux r)).
  - rewrite S1. unfold setup_2010, h_list, h_int, h_mut. rewrite Nx, Nv, Na, NX. cbn [as_list bindR as_int].
    rewrite (mapR_ok _ (fun v => match v with PInt z => z | _ => 0%Z end)).
    2:{ intros v0 Hi. apply in_map_iff in Hi as (z & <- & _). reflexivity. }
    cbn [bindR]. do 2 f_equal.
    + unfold empties, vst. rewrite Nat2Z.id. rewrite map_map.
      generalize (r4_v r). induction l as [|v l IH]; cbn [length repeat map firstn]; [reflexivity|]. f_equal. exact IH.
    + apply (pre_O_map g (r4_vars r)). reflexivity.
  - intros m Hm. split; [discriminate|]. constructor; [eapply row_solid; eauto; discriminate|].
    apply Forall_forall. intros l Hi. apply in_concat in Hi as (b & Hi & Hl). apply in_map_iff in Hi as (v & <- & Hi).
    apply in_map_iff in Hl as (rw & <- & Hl). eapply row_solid; eauto.
    unfold blk in Hl. destruct (nth_error v m) as [w|] eqn:Ew; [|destruct Hl].
    pose proof (Hlv m Hm) as K. rewrite Forall_forall in K. destruct (K v Hi) as [_ K2].
    assert (Hw : has_shape (r4_nx r) w) by (rewrite Forall_forall in K2; apply K2; eapply nth_error_In; eauto).
    destruct (rows_ok (r4_nx r) w Hnx Hpos Hw) as [_ K3]. rewrite Forall_forall in K3. now apply K3.
  - intros m rest Hm. do 2 eexists. rewrite S2, S3. split.
    { rewrite nls_app, <- app_assoc. apply readData1_2010_ok; auto. }
    apply readData2_2010_ok; auto.
  - rewrite S6. cbn [store d_X d_V d_A]. unfold M in *. rewrite !full_cols by auto.
    rewrite firstn_all2 by now rewrite map_length.
    replace (vst (length (r4_nx r)) (length (r4_x r)) (map (map (nested_map dn)) (r4_v r)))
      with (map (fun v => PList (map nested_pv v)) (map (map (nested_map dn)) (r4_v r))).
    2:{ unfold vst. apply map_ext_in. intros v Hi. apply in_map_iff in Hi as (v0 & <- & Hi).
        rewrite Forall_forall in Hl4. destruct (Hl4 v0 Hi) as [K _]. rewrite firstn_all2 by (rewrite map_length; lia). reflexivity. }
    intros k. unfold dr, read2010, items2010.
    cbn [r4_common r4_vars r4_aux norm2010 r4_dx r4_xname r4_nx r4_axes r4_x r4_a r4_v]. cbv zeta.
    assert (F1 : map head_num (dxs r) = head_num (r4_dx r) :: map x_dx (map (norm_axis g) (r4_axes r))).
    { unfold dxs. cbn [map]. f_equal. rewrite !map_map. reflexivity. }
    assert (F2 : map (@len_pv num _) (defs r) = map (fun a => len_pv (x_def a)) (map (norm_axis g) (r4_axes r))).
    { unfold defs. rewrite !map_map. apply map_ext. intros a. unfold len_pv. cbn [norm_axis x_def]. now rewrite map_length. }
    assert (F3 : xnames r = r4_xname r :: map x_name (map (norm_axis g) (r4_axes r))).
    { unfold xnames. rewrite map_map. reflexivity. }
    assert (F4 : map (map dn) (defs r) = map x_def (map (norm_axis g) (r4_axes r))).
    { unfold defs. rewrite !map_map. reflexivity. }
    rewrite F1, F2, F3, F4.
    unfold upd_common. rewrite quot_ffi. unfold ffi_of. cbn [map]. rewrite !map_map.
    unfold upd_aux, aux_items. destruct (map norm_var (r4_aux r)); destruct k; reflexivity.
Qed.
Theorem rt2010 c r d nlh : fam c (length (r4_nx r)) -> ok2010 r -> palindromic_def r ->
  has d (items2010 r) -> attr d kNLHEAD = PInt nlh ->
  comes_back o c d (items2010 (norm2010 g r)).
Proof. intros. eapply comes_back_of, rt2010_as; eauto. Qed.
End RT2.
