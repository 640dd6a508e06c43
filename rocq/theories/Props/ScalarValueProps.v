(** C146: variables without dimensions keep their value. *)
From Coq Require Import List NArith ZArith Bool Lia.
From Verif Require Import Py.Str Py.Res Py.Num Py.Arith Model.Dict Model.NCWrite Model.Xarray Model.Collector Model.ScalarValue Spec.CollectorSpec Spec.ZNum Spec.Binary64
  Proofs.StrLemmas Props.CollectorProps Props.AttrComments.
Import ListNotations.
Open Scope N_scope.

(** A character, and its bytes in UTF-8. *)
Definition char (c : N) : Prop := c < 55296 \/ (57344 <= c /\ c < 1114112).
Definition utf8 (c : N) : list N :=
  if c <? 128 then [c]
  else if c <? 2048 then [192 + c / 64; 128 + c mod 64]
  else if c <? 65536 then [224 + c / 4096; 128 + (c / 64) mod 64; 128 + c mod 64]
  else [240 + c / 262144; 128 + (c / 4096) mod 64; 128 + (c / 64) mod 64; 128 + c mod 64].

Ltac Zify.zify_post_hook ::= Z.to_euclidean_division_equations.
Ltac dec b := let E := fresh "B" in destruct b eqn:E; [try apply N.ltb_lt in E; try apply N.leb_le in E | try apply N.ltb_ge in E; try apply N.leb_gt in E].
Lemma next_iff b : next b = true <-> 128 <= b /\ b < 192.
Proof. unfold next. rewrite andb_true_iff, N.leb_le, N.ltb_lt. reflexivity. Qed.
Lemma next_of x : x < 64 -> next (128 + x) = true.
Proof. intros L. apply next_iff. lia. Qed.
Lemma mod64 x : x mod 64 < 64.
Proof. apply N.mod_lt. discriminate. Qed.
Lemma ltb_t a b : a < b -> (a <? b) = true. Proof. apply N.ltb_lt. Qed.
Lemma ltb_f a b : b <= a -> (a <? b) = false. Proof. apply N.ltb_ge. Qed.
Lemma leb_f a b : b < a -> (a <=? b) = false. Proof. apply N.leb_gt. Qed.
Lemma leb_t a b : a <= b -> (a <=? b) = true. Proof. apply N.leb_le. Qed.
(** One character. *)
Lemma decode_char c r : char c -> utf8_decode (utf8 c ++ r) = cons_opt c (utf8_decode r).
Proof.
  intros C. unfold utf8. destruct (N.ltb_spec c 128) as [L1 | L1].
  { cbn [app utf8_decode]. rewrite (ltb_t _ _ L1). reflexivity. }
  destruct (N.ltb_spec c 2048) as [L2 | L2].
  { cbn [app utf8_decode]. pose proof (mod64 c) as M. pose proof (N.div_mod' c 64) as D.
    rewrite (ltb_f (192 + c / 64) 128) by lia. rewrite (ltb_f (192 + c / 64) 194) by lia. rewrite (next_of _ M). cbn [negb].
    rewrite (ltb_t (192 + c / 64) 224) by lia. f_equal. lia. }
  destruct (N.ltb_spec c 65536) as [L3 | L3].
  { cbn [app utf8_decode]. pose proof (mod64 c) as M. pose proof (mod64 (c / 64)) as M2. pose proof (N.div_mod' c 64) as D. pose proof (N.div_mod' (c / 64) 64) as D2.
    rewrite N.div_div in D2 by discriminate. change (64 * 64) with 4096 in D2.
    rewrite (ltb_f (224 + c / 4096) 128) by lia. rewrite (ltb_f (224 + c / 4096) 194) by lia. rewrite (next_of _ M), (next_of _ M2). cbn [negb].
    rewrite (ltb_f (224 + c / 4096) 224) by lia. rewrite (ltb_t (224 + c / 4096) 240) by lia.
    assert (Q : (224 + c / 4096 - 224) * 4096 + (128 + (c / 64) mod 64 - 128) * 64 + (128 + c mod 64 - 128) = c) by lia. cbv zeta. rewrite Q.
    rewrite (ltb_f c 2048) by lia. cbn [orb].
    assert (S : (55296 <=? c) && (c <? 57344) = false).
    { destruct C as [C | C]; [rewrite (leb_f _ _ C); reflexivity | rewrite (ltb_f c 57344) by lia; apply andb_false_r]. }
    rewrite S. reflexivity. }
  cbn [app utf8_decode]. pose proof (mod64 c) as M. pose proof (mod64 (c / 64)) as M2. pose proof (mod64 (c / 4096)) as M3.
  pose proof (N.div_mod' c 64) as D. pose proof (N.div_mod' (c / 64) 64) as D2. pose proof (N.div_mod' (c / 4096) 64) as D3.
  rewrite N.div_div in D2 by discriminate. change (64 * 64) with 4096 in D2. rewrite N.div_div in D3 by discriminate. change (4096 * 64) with 262144 in D3.
  assert (L4 : c < 1114112) by (destruct C; lia).
  rewrite (ltb_f (240 + c / 262144) 128) by lia. rewrite (ltb_f (240 + c / 262144) 194) by lia. rewrite (next_of _ M), (next_of _ M2), (next_of _ M3). cbn [negb].
  rewrite (ltb_f (240 + c / 262144) 224) by lia. rewrite (ltb_f (240 + c / 262144) 240) by lia. rewrite (ltb_t (240 + c / 262144) 245) by lia.
  assert (Q : (240 + c / 262144 - 240) * 262144 + (128 + (c / 4096) mod 64 - 128) * 4096 + (128 + (c / 64) mod 64 - 128) * 64 + (128 + c mod 64 - 128) = c) by lia. cbv zeta. rewrite Q.
  rewrite (ltb_f c 65536) by lia. rewrite (leb_f 1114112 c) by lia. reflexivity.
Qed.
Theorem C146_bytes : forall s, Forall char s -> utf8_decode (flat_map utf8 s) = Some s.
Proof.
  induction s as [| c s IH]; intros F; [reflexivity |]. inversion F as [| ? ? C F']; subst. cbn [flat_map]. rewrite decode_char by exact C. rewrite (IH F'). reflexivity.
Qed.
(** Nothing else is read as a text. *)
Lemma cons_opt_inv c r s : cons_opt c r = Some s -> exists t, r = Some t /\ s = c :: t.
Proof. destruct r as [t |]; cbn; [intros Q; injection Q as <-; eauto | discriminate]. Qed.
Lemma utf8_one c : c < 128 -> utf8 c = [c].
Proof. intros L. unfold utf8. rewrite (ltb_t _ _ L). reflexivity. Qed.
Lemma utf8_two x y : 2 <= x -> x < 32 -> y < 64 -> utf8 (x * 64 + y) = [192 + x; 128 + y].
Proof.
  intros L1 L2 L3. unfold utf8. rewrite (ltb_f (x * 64 + y) 128) by lia. rewrite (ltb_t (x * 64 + y) 2048) by lia.
  assert (Q : (x * 64 + y) / 64 = x) by lia. assert (R : (x * 64 + y) mod 64 = y) by lia. rewrite Q, R. reflexivity.
Qed.
Lemma div_of x y k : y < k -> (x * k + y) / k = x.
Proof. intros L. assert (k <> 0) by lia. symmetry. apply (N.div_unique _ _ _ y); lia. Qed.
Lemma mod_of x y k : y < k -> (x * k + y) mod k = y.
Proof. intros L. assert (k <> 0) by lia. symmetry. apply (N.mod_unique _ _ x); lia. Qed.
Lemma utf8_three x y z : 2048 <= x * 4096 + y * 64 + z -> x < 16 -> y < 64 -> z < 64 -> utf8 (x * 4096 + y * 64 + z) = [224 + x; 128 + y; 128 + z].
Proof.
  intros L1 L2 L3 L4. unfold utf8. rewrite (ltb_f _ 128) by lia. rewrite (ltb_f _ 2048) by lia. rewrite (ltb_t _ 65536) by lia.
  assert (E : x * 4096 + y * 64 + z = (x * 64 + y) * 64 + z) by lia. rewrite E.
  rewrite (div_of (x * 64 + y) z 64 L4), (mod_of (x * 64 + y) z 64 L4), (mod_of x y 64 L3).
  rewrite <- E. replace (x * 4096 + y * 64 + z) with (x * 4096 + (y * 64 + z)) by lia. rewrite div_of by lia. reflexivity.
Qed.
Lemma utf8_four x y z w : 65536 <= x * 262144 + y * 4096 + z * 64 + w -> y < 64 -> z < 64 -> w < 64 ->
  utf8 (x * 262144 + y * 4096 + z * 64 + w) = [240 + x; 128 + y; 128 + z; 128 + w].
Proof.
  intros L1 L2 L3 L4. unfold utf8. rewrite (ltb_f _ 128) by lia. rewrite (ltb_f _ 2048) by lia. rewrite (ltb_f _ 65536) by lia.
  assert (E : x * 262144 + y * 4096 + z * 64 + w = (x * 4096 + y * 64 + z) * 64 + w) by lia. rewrite E.
  rewrite (div_of (x * 4096 + y * 64 + z) w 64 L4), (mod_of (x * 4096 + y * 64 + z) w 64 L4).
  assert (E2 : (x * 4096 + y * 64 + z) mod 64 = z) by (replace (x * 4096 + y * 64 + z) with ((x * 64 + y) * 64 + z) by lia; apply mod_of, L3). rewrite E2.
  rewrite <- E. assert (E3 : (x * 262144 + y * 4096 + z * 64 + w) / 4096 = x * 64 + y) by (replace (x * 262144 + y * 4096 + z * 64 + w) with ((x * 64 + y) * 4096 + (z * 64 + w)) by lia; apply div_of; lia).
  rewrite E3, (mod_of x y 64 L2). replace (x * 262144 + y * 4096 + z * 64 + w) with (x * 262144 + (y * 4096 + z * 64 + w)) by lia. rewrite div_of by lia. reflexivity.
Qed.
Theorem C146_only_bytes : forall l s, utf8_decode l = Some s -> Forall char s /\ l = flat_map utf8 s.
Proof.
  intros l. remember (length l) as n eqn:N. assert (L : (length l <= n)%nat) by lia. clear N. revert l L. induction n as [| n IH]; intros l L s Q.
  { destruct l; [| cbn in L; lia]. injection Q as <-. split; [constructor | reflexivity]. }
  destruct l as [| b0 t0]; [injection Q as <-; split; [constructor | reflexivity] |]. cbn [length] in L. cbn [utf8_decode] in Q.
  destruct (N.ltb_spec b0 128) as [A | A].
  { apply cons_opt_inv in Q as (t & Q & ->). destruct (IH t0 ltac:(lia) _ Q) as (F & ->). split; [constructor; [left; lia | exact F] |]. cbn [flat_map]. rewrite (utf8_one _ A). reflexivity. }
  destruct (N.ltb_spec b0 194) as [A2 | A2]; [discriminate Q |].
  destruct t0 as [| b1 t1]; [discriminate Q |]. cbn [length] in L. destruct (next b1) eqn:N1; [| discriminate Q]. apply next_iff in N1 as (N1 & N1'). cbn [negb] in Q.
  destruct (N.ltb_spec b0 224) as [A3 | A3].
  { apply cons_opt_inv in Q as (t & Q & ->). destruct (IH t1 ltac:(lia) _ Q) as (F & ->). split; [constructor; [left; lia | exact F] |].
    cbn [flat_map]. rewrite utf8_two by lia. cbn [app]. f_equal; [lia |]. f_equal. lia. }
  destruct t1 as [| b2 t2]; [discriminate Q |]. cbn [length] in L. destruct (next b2) eqn:N2; [| discriminate Q]. apply next_iff in N2 as (N2 & N2'). cbn [negb] in Q.
  destruct (N.ltb_spec b0 240) as [A4 | A4].
  { cbv zeta in Q. destruct (_ || _) eqn:O in Q; [discriminate Q |]. apply orb_false_iff in O as (O1 & O2). apply N.ltb_ge in O1.
    apply cons_opt_inv in Q as (t & Q & ->). destruct (IH t2 ltac:(lia) _ Q) as (F & ->). split.
    - constructor; [| exact F]. unfold char. apply andb_false_iff in O2 as [O2 | O2]; [apply N.leb_gt in O2; left; exact O2 | apply N.ltb_ge in O2; right; lia].
    - cbn [flat_map]. rewrite utf8_three by lia. cbn [app]. f_equal; [lia |]. f_equal; [lia |]. f_equal. lia. }
  destruct t2 as [| b3 t3]; [discriminate Q |]. cbn [length] in L. destruct (next b3) eqn:N3; [| discriminate Q]. apply next_iff in N3 as (N3 & N3'). cbn [negb] in Q.
  destruct (N.ltb_spec b0 245) as [A5 | A5]; [| discriminate Q]. cbv zeta in Q. destruct (_ || _) eqn:O in Q; [discriminate Q |]. apply orb_false_iff in O as (O1 & O2). apply N.ltb_ge in O1. apply N.leb_gt in O2.
  apply cons_opt_inv in Q as (t & Q & ->). destruct (IH t3 ltac:(lia) _ Q) as (F & ->). split.
  - constructor; [| exact F]. right. split; [| exact O2]. lia.
  - cbn [flat_map]. rewrite utf8_four by lia. cbn [app]. f_equal; [lia |]. f_equal; [lia |]. f_equal; [lia |]. f_equal. lia.
Qed.

(** ** The value *)
Section C146.
Context {num date : Type} `{NumOps num}.
(** What a variable without dimensions says: a text (of type str or bytes, or a
    text of variable length) or a number. *)
Inductive value_of : zero_array num date -> pyv num -> Prop :=
| value_str s : value_of (ZStr s) (PStr s)
| value_bytes s : Forall char s -> value_of (ZBytes (flat_map utf8 s)) (PStr s)
| value_int z : value_of (ZInt z) (PNum (num_of_Z z))
| value_float x : value_of (ZFloat x) (PNum x)
| value_text s : value_of (ZText s) (PStr s).
(** Not a text of variable length and not a date. *)
Definition no_object (a : zero_array num date) : Prop := (forall s, a <> ZText s) /\ forall d, a <> ZDate d.
Theorem C146_value_partial : forall a v, no_object a -> (get_rank_zero_array_value a = Ok v <-> value_of a v).
Proof.
  intros a v (N1 & N2). split.
  - destruct a as [s | b | z | x | s | d]; cbn [get_rank_zero_array_value]; intros Q; try (injection Q as <-; constructor); [| destruct (N1 s eq_refl) | destruct (N2 d eq_refl)].
    destruct (utf8_decode b) as [s |] eqn:D; [| discriminate Q]. injection Q as <-. apply C146_only_bytes in D as (F & ->). constructor. exact F.
  - intros V. destruct V as [s | s F | z | x | s]; cbn [get_rank_zero_array_value]; try reflexivity; [rewrite (C146_bytes s F); reflexivity | destruct (N1 s eq_refl)].
Qed.
(** Of an object there is a value only for the text of a number; it is the number. *)
Theorem C146_object_partial : forall s d v,
  (get_rank_zero_array_value (ZText (num := num) (date := date) s) = Ok v <-> exists x, num_parse s = Some x /\ v = PNum x) /\
  get_rank_zero_array_value (ZDate (num := num) (date := date) d) = Err ETypeError.
Proof.
  intros s d v. split; [| reflexivity]. cbn [get_rank_zero_array_value]. destruct (num_parse s) as [x |]; split.
  - intros Q. injection Q as <-. eauto.
  - intros (y & Q & ->). injection Q as ->. reflexivity.
  - discriminate.
  - intros (y & Q & _). discriminate Q.
Qed.
(** The value that was read is the value of the array that is made of it: the
    second conversion changes nothing, and is the one of [Model.Collector]. *)
Theorem C146_again : forall (Ar : ArithOps num) name attrs (a : zero_array num date) v, read_single name attrs a = Ok v ->
  rank v = 0%nat /\ convert_single (date := date) v = convertSingleton v.
Proof.
  intros Ar name attrs a v R. unfold read_single in R. destruct (get_rank_zero_array_value a) as [x | e] eqn:G; [| discriminate R]. injection R as <-. split; [reflexivity |].
  assert (T : (exists s, x = PStr s) \/ exists y, x = PNum y).
  { destruct a as [s | b | z | y | s | d]; cbn [get_rank_zero_array_value] in G; try (injection G as <-; eauto; fail); [| | discriminate G].
    - destruct (utf8_decode b); [injection G as <-; eauto | discriminate G].
    - destruct (num_parse s); [injection G as <-; eauto | discriminate G]. }
  unfold convert_single, convertSingleton. cbn [v_info v_data rank v_axes length Nat.eqb].
  destruct (getBestName _); cbn [bindR]; [| reflexivity]. destruct T as [(s & ->) | (y & ->)]; reflexivity.
Qed.
End C146.
(** The value is an attribute of a variable of the first dictionary (and so in the
    comments, C132). *)
Theorem C146_exported_partial : forall num date (Num : NumOps num) (Ar : ArithOps num) (E : env num) req globals (vars : list (xvar num)) c cs name attrs (a : zero_array num date) v x best,
  convert E req globals vars = Ok (Some (c :: cs)) -> In v vars -> read_single name attrs a = Ok v -> no_object a -> value_of a x ->
  getBestName (mkNamed name attrs []) = Ok best -> (forall u ax, In u vars -> In ax (v_axes u) -> n_name (ax_info ax) <> best) ->
  exists w, In w (c_zero c) /\ v_name w = best /\ In (lit "value", mkG true x) (n_attrs (v_info w)).
Proof.
  intros num date Num Ar E req globals vars c cs name attrs a v x best C I R No V B Nd. apply (C146_value_partial a x No) in V.
  unfold read_single in R. rewrite V in R. cbn [bindR] in R. injection R as <-.
  destruct (C132_values num Num Ar E req globals vars c cs C _ best I eq_refl B Nd) as (w & Iw & Nw & Vw & _). exists w. auto.
Qed.

(** ** Examples *)
Example C146_example : get_rank_zero_array_value (num := Z) (date := Z) (ZBytes [82; 195; 188; 116; 105]) = Ok (PStr [82; 252; 116; 105]) /\
  Forall char [82; 252; 116; 105] /\ flat_map utf8 [82; 252; 8364; 128512] = [82; 195; 188; 226; 130; 172; 240; 159; 152; 128] /\
  get_rank_zero_array_value (num := Z) (date := Z) (ZBytes [192; 128]) = Err EValueError /\
  get_rank_zero_array_value (num := Z) (date := Z) (ZBytes [82; 252]) = Err EValueError.
Proof. split; [reflexivity |]. split; [repeat (constructor; [left; lia |]); constructor |]. repeat split; vm_compute; reflexivity. Qed.
(** A file with a variable without dimensions. *)
Example C146_in_file : exists v, read_single (num := Z) (date := Z) (lit "s") [(lit "units", txt (lit "m"))] (ZBytes (lit "calm")) = Ok v /\
  special_of [] [hd v with_atts; v] = [map PStr (map lit
  ["==== Special Comments follow ===="; "== Singleton Variables defined in the source file follow =="; "  Variable s (m): s  (m)"; "    units = m"; "    value = calm";
   "== Singleton Variables defined in the source file end =="; "=== Additional Variable Attributes defined in the source file ===";
   "== Variable attributes from source (NetCDF) file follow =="; "  Variable p: p (hPa)"; "    units = hPa"; "    level = 2";
   "== Variable attributes from source (NetCDF) file end =="; "==== Special Comments end ===="]%pylit)].
Proof. eexists. split; [vm_compute; reflexivity |]. vm_compute. reflexivity. Qed.
(** A date and a text of variable length have no value: the conversion of the file
    fails; a text of digits becomes a number; a whole number beyond 2^53 changes. *)
Theorem C146_refuted :
  (exists d : Z, forall name attrs, read_single (num := Z) name attrs (ZDate d) = Err ETypeError) /\
  (exists s, forall name attrs, value_of (date := Z) (num := Z) (ZText s) (PStr s) /\ read_single (num := Z) (date := Z) name attrs (ZText s) = Err EValueError) /\
  (exists s, get_rank_zero_array_value (num := Z) (date := Z) (ZText s) = Ok (PNum 7%Z) /\ num_str 7%Z <> s) /\
  (exists z y, z <> y /\ get_rank_zero_array_value (num := b64) (date := Z) (ZInt z) = get_rank_zero_array_value (num := b64) (date := Z) (ZInt y)).
Proof.
  split; [exists 0%Z; reflexivity |]. split; [exists (lit "calm"); intros name attrs; split; [constructor | vm_compute; reflexivity] |].
  split; [exists (lit "007"); split; [vm_compute; reflexivity | intros Q; vm_compute in Q; discriminate Q] |].
  exists 9007199254740993%Z, 9007199254740992%Z. split; [lia |]. vm_compute. reflexivity.
Qed.

Print Assumptions C146_bytes.
Print Assumptions C146_only_bytes.
Print Assumptions C146_value_partial.
Print Assumptions C146_object_partial.
Print Assumptions C146_again.
Print Assumptions C146_exported_partial.
Print Assumptions C146_refuted.
