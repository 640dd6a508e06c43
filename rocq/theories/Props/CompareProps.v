(** Properties C44 to C47: comparison of files (nappy/utils/compare_na.py). *)
From Coq Require Import List NArith ZArith QArith Bool Lia Lqa.
From Verif Require Import Py.Str Py.Res Py.Num Model.CommonUtils Model.Compare Spec.LetterSpec Spec.QNum
  Proofs.StrLemmas.
Import ListNotations.

(** Laws of the arithmetic that the theorems need.  Binary floating point
    arithmetic has them with [opp a b] meaning: of opposite sign, neither is
    nan, not both infinite. *)
Record ratio_laws (num : Type) `{CmpOps num} (opp : num -> num -> Prop) : Prop := {
  eqb_sym : forall a b : num, num_eqb a b = num_eqb b a;
  opp_sym : forall a b : num, opp a b -> opp b a;
  opp_dec : forall a b : num, opp a b \/ ~ opp a b;
  tiny_nonzero : num_eqb (num_tiny (num:=num)) num_zero = false;
  (** a ratio of numbers of opposite sign is below 1 by more than 1 percent *)
  div_opp : forall a b : num, num_eqb a num_zero = false -> num_eqb b num_zero = false -> opp a b ->
    num_ltb (num_div a b) num_one = true /\ num_ltb num_thr (num_sub num_one (num_div a b)) = true;
  (** otherwise a ratio and its inverse are not both below 1 *)
  div_same : forall a b : num, num_eqb a num_zero = false -> num_eqb b num_zero = false -> ~ opp a b ->
    num_ltb (num_div a b) num_one = true -> num_ltb (num_div b a) num_one = false;
  (** 1 - x is not positive if x is not below 1 *)
  sub_one : forall x : num, num_ltb x num_one = false -> num_ltb num_thr (num_sub num_one x) = false
}.
(** A text without letters is not nan. *)
Definition parse_law (num : Type) `{NumOps num} `{CmpOps num} : Prop :=
  forall s (x : num), has_letter s = false -> num_parse s = Some x -> num_eqb x x = true.

(** The laws hold for exact arithmetic. *)
Definition q_opp (a b : Q) : Prop := (a * b < 0)%Q.
Lemma q_ltb_true a b : q_ltb a b = true <-> (a < b)%Q.
Proof.
  unfold q_ltb. rewrite negb_true_iff. split.
  - intros E. apply Qnot_le_lt. intros K. apply Qle_bool_iff in K. congruence.
  - intros E. destruct (Qle_bool b a) eqn:K; [|reflexivity]. apply Qle_bool_iff in K. exfalso. apply (Qlt_not_le _ _ E K).
Qed.
Lemma q_ltb_false a b : q_ltb a b = false <-> (b <= a)%Q.
Proof.
  unfold q_ltb. rewrite negb_false_iff. apply Qle_bool_iff.
Qed.
Lemma q_nonzero a : Qeq_bool a 0 = false -> ~ (a == 0)%Q.
Proof. intros E K. apply Qeq_bool_iff in K. congruence. Qed.
Lemma q_div_neg a b : ~ (b == 0)%Q -> (a * b < 0)%Q -> (a / b < 0)%Q.
Proof.
  intros Hb Ho. assert (E : (a / b == (a * b) * / (b * b))%Q) by (field; auto).
  rewrite E. assert (Hp : (0 < / (b * b))%Q).
  { apply Qinv_lt_0_compat. destruct (Q_dec b 0) as [[K | K] | K]; [|nra|contradiction]. nra. }
  nra.
Qed.
Lemma q_laws : ratio_laws Q q_opp.
Proof.
  split; cbn [num_eqb num_ltb num_div num_sub num_zero num_one num_tiny num_thr QCmp].
  - intros a b. destruct (Qeq_bool a b) eqn:E1, (Qeq_bool b a) eqn:E2; auto.
    + apply Qeq_bool_iff in E1. symmetry in E1. apply Qeq_bool_iff in E1. congruence.
    + apply Qeq_bool_iff in E2. symmetry in E2. apply Qeq_bool_iff in E2. congruence.
  - unfold q_opp. intros a b. lra.
  - intros a b. unfold q_opp. destruct (Qlt_le_dec (a * b) 0) as [K | K]; [now left|]. right. now apply Qle_not_lt.
  - reflexivity.
  - intros a b Ha Hb Ho. apply q_nonzero in Ha, Hb. rewrite !q_ltb_true. pose proof (q_div_neg a b Hb Ho). split; [lra|].
    assert (K : ((1 # 100) < 1)%Q) by reflexivity. lra.
  - intros a b Ha Hb Ho. apply q_nonzero in Ha, Hb. rewrite q_ltb_true, q_ltb_false. unfold q_opp in Ho. apply Qnot_lt_le in Ho.
    intros K. assert (Hm : ((a / b) * (b / a) == 1)%Q) by (field; auto).
    assert (Hp : (0 < b / a)%Q).
    { assert (E : (b / a == (a * b) * / (a * a))%Q) by (field; auto). rewrite E.
      assert (Hp : (0 < / (a * a))%Q).
      { apply Qinv_lt_0_compat. destruct (Q_dec a 0) as [[K' | K'] | K']; [|nra|contradiction]. nra. }
      assert (Hab : (0 < a * b)%Q).
      { apply Qle_lteq in Ho as [Ho | Ho]; [exact Ho|]. exfalso.
        symmetry in Ho. apply Qmult_integral in Ho as [Ho | Ho]; contradiction. }
      nra. }
    nra.
  - intros x. rewrite !q_ltb_false. lra.
Qed.
Lemma q_parse_law : parse_law Q.
Proof. intros s x _ _. apply Qeq_bool_iff. reflexivity. Qed.

(** * Items and lines *)
Lemma str_eqb_refl s : str_eqb s s = true. Proof. now apply str_eqb_eq. Qed.
Lemma str_eqb_sym a b : str_eqb a b = str_eqb b a.
Proof.
  destruct (str_eqb a b) eqn:E; [apply str_eqb_eq in E as ->; now rewrite str_eqb_refl|].
  destruct (str_eqb b a) eqn:E'; [apply str_eqb_eq in E' as ->; now rewrite str_eqb_refl in E|reflexivity].
Qed.
Lemma strs_eqb_eq a b : strs_eqb a b = true <-> a = b.
Proof.
  revert b. induction a as [|x a IH]; intros [|y b]; cbn; try (split; congruence).
  rewrite andb_true_iff, str_eqb_eq, IH. split; [intros [-> ->]; reflexivity|]. intros E. injection E as -> ->. auto.
Qed.
Lemma strs_eqb_sym a b : strs_eqb a b = strs_eqb b a.
Proof.
  revert b. induction a as [|x a IH]; intros [|y b]; cbn; auto. now rewrite IH, str_eqb_sym.
Qed.

Lemma split_str_chars d s : forall k c w, In w (fst (split_str_aux d s k) :: snd (split_str_aux d s k)) -> In c w -> In c s.
Proof.
  induction s as [|x s IH]; intros k c w; cbn [split_str_aux].
  - cbn. intros [<- | []] [].
  - destruct k as [|k].
    + destruct (starts_with d (x :: s)).
      * specialize (IH (pred (length d)) c w). destruct (split_str_aux d s (pred (length d))) as [w0 ws]. cbn in *.
        intros [<- | Hi] Hc; [destruct Hc|]. auto.
      * specialize (IH O c). destruct (split_str_aux d s O) as [w0 ws]. cbn in *.
        intros [<- | Hi] Hc; [|right; eapply IH; eauto]. destruct Hc as [-> | Hc]; [now left|]. right. eapply IH; eauto.
    + intros Hi Hc. right. eapply IH; eauto.
Qed.
Lemma split_aux_chars s : forall c w, In w (fst (split_aux s) :: snd (split_aux s)) -> In c w -> In c s.
Proof.
  induction s as [|x s IH]; intros c w; cbn [split_aux].
  - cbn. intros [<- | []] [].
  - specialize (IH c). destruct (split_aux s) as [w0 ws]. cbn in IH. destruct (is_space x); cbn.
    + intros [<- | Hi] Hc; [destruct Hc|]. right. destruct (is_nil w0); [eapply IH; eauto|].
      destruct Hi as [<- | Hi]; eapply IH; eauto.
    + intros [<- | Hi] Hc; [|right; eapply IH; eauto]. destruct Hc as [-> | Hc]; [now left|]. right. eapply IH; eauto.
Qed.
Lemma split_items_chars d s l w c : split_items d s = Ok l -> In w l -> In c w -> In c s.
Proof.
  destruct d as [[|x d]|]; cbn [split_items]; intros E; try discriminate.
  - pose proof (split_str_chars (x :: d) s O c w) as K. destruct (split_str_aux (x :: d) s 0) as [w0 ws].
    injection E as <-. exact K.
  - injection E as <-. unfold split_ws. pose proof (split_aux_chars s c w) as K. destruct (split_aux s) as [w0 ws].
    cbn in K. destruct (is_nil w0); cbn; auto.
Qed.
Lemma no_letter_items d s l w : split_items d s = Ok l -> has_letter s = false -> In w l -> has_letter w = false.
Proof.
  intros E Hs Hw. unfold has_letter in *. destruct (existsb is_letter w) eqn:K; [|reflexivity].
  apply existsb_exists in K as (c & Hc & Kc). exfalso.
  assert (existsb is_letter s = true); [|congruence]. apply existsb_exists. exists c. split; [|exact Kc].
  eapply split_items_chars; eauto.
Qed.
Definition real_delim (d : option str) : Prop := d <> Some [].
Lemma split_items_ok d s : real_delim d -> exists l, split_items d s = Ok l.
Proof. intros Hd. destruct d as [[|x d]|]; cbn; eauto. exfalso. now apply Hd. Qed.

Section Laws.
Context {num : Type} `{NumOps num} `{CmpOps num}.
Notation compareSections := (compareSections (num:=num)).
Notation line_same := (line_same (num:=num)).
Notation items_same := (items_same (num:=num)).

Lemma items_same_refl ap l : parse_law num -> Forall (fun w => has_letter w = false) l -> items_same ap l l = Ok true.
Proof.
  intros Hp F. induction F as [|w l Hw _ IH]; [reflexivity|]. cbn [Compare.items_same]. unfold item_same.
  destruct (num_parse w) as [x|] eqn:E; [rewrite (Hp _ _ Hw E)|rewrite str_eqb_refl]; exact IH.
Qed.
Lemma line_same_refl nc ap d a : parse_law num -> real_delim d -> line_same nc ap d d a a = Ok true.
Proof.
  intros Hp Hd. unfold Compare.line_same. cbv zeta. destruct (has_letter (strip a)) eqn:El; cbn [andb].
  - now rewrite str_eqb_refl.
  - destruct (split_items_ok d (strip a) Hd) as [l E]. rewrite E. cbn [bindR]. rewrite Nat.eqb_refl. cbn [negb].
    destruct nc; cbn [negb].
    + apply items_same_refl; [exact Hp|]. apply Forall_forall. intros w Hw. eapply no_letter_items; eauto.
    + f_equal. now apply strs_eqb_eq.
Qed.
Lemma sections_refl nc ap d l : parse_law num -> real_delim d -> compareSections l l nc ap d d = Ok true.
Proof.
  intros Hp Hd. induction l as [|a l IH]; [reflexivity|]. cbn [Compare.compareSections].
  rewrite line_same_refl, IH by auto. reflexivity.
Qed.

Variable opp : num -> num -> Prop.
Hypothesis L : ratio_laws num opp.

(** Two different numbers are reported as different exactly when, after
    replacing zero, they have opposite signs. *)
Definition no_zero (a : num) : num := if num_eqb a num_zero then num_tiny else a.
Lemma no_zero_nz a : num_eqb (no_zero a) num_zero = false.
Proof. unfold no_zero. destruct (num_eqb a num_zero) eqn:E; [apply (tiny_nonzero _ _ L)|exact E]. Qed.
Lemma approx_iff a b : approx_differ a b = true <-> opp (no_zero a) (no_zero b).
Proof.
  unfold approx_differ. cbv zeta. fold (no_zero a) (no_zero b).
  pose proof (no_zero_nz a) as Ha. pose proof (no_zero_nz b) as Hb. set (x := no_zero a) in *. set (y := no_zero b) in *.
  destruct (opp_dec _ _ L x y) as [Ho | Ho].
  - destruct (div_opp _ _ L x y Ha Hb Ho) as [-> _].
    destruct (div_opp _ _ L y x Hb Ha (opp_sym _ _ L _ _ Ho)) as [_ ->]. tauto.
  - split; [|tauto]. intros K. exfalso. destruct (num_ltb (num_div x y) num_one) eqn:E.
    + rewrite (sub_one _ _ L) in K; [discriminate|]. now apply (div_same _ _ L).
    + rewrite (sub_one _ _ L) in K; [discriminate|exact E].
Qed.
Lemma approx_sym a b : approx_differ a b = approx_differ b a.
Proof.
  destruct (approx_differ a b) eqn:E1, (approx_differ b a) eqn:E2; auto.
  - apply approx_iff, (opp_sym _ _ L), approx_iff in E1. congruence.
  - apply approx_iff, (opp_sym _ _ L), approx_iff in E2. congruence.
Qed.
Lemma item_sym ap x y : item_same (num:=num) ap x y = item_same ap y x.
Proof.
  unfold item_same. destruct (num_parse x), (num_parse y).
  - now rewrite (eqb_sym _ _ L), approx_sym.
  - now rewrite str_eqb_sym.
  - now rewrite str_eqb_sym.
  - now rewrite str_eqb_sym.
Qed.
Lemma items_sym ap a : forall b, items_same ap a b = items_same ap b a.
Proof.
  induction a as [|x a IH]; intros [|y b]; try reflexivity. cbn [Compare.items_same]. rewrite item_sym.
  destruct (item_same ap y x) as [[]|]; cbn [bindR]; auto.
Qed.
Lemma line_sym nc ap d1 d2 a b : line_same nc ap d1 d2 a b = line_same nc ap d2 d1 b a.
Proof.
  unfold Compare.line_same. cbv zeta. set (x := strip a). set (y := strip b).
  assert (El : has_letter x && str_eqb x y = has_letter y && str_eqb y x).
  { rewrite (str_eqb_sym y x). destruct (str_eqb x y) eqn:E; [apply str_eqb_eq in E as ->; reflexivity|]. now rewrite !andb_false_r. }
  rewrite El. destruct (has_letter y && str_eqb y x); [reflexivity|].
  assert (Ee : forall d s e, split_items d s = Err e -> d = Some [] /\ e = EValueError).
  { intros [[|]|] s e K; try discriminate. injection K as <-. auto. }
  destruct (split_items d1 x) as [i1|e1] eqn:E1, (split_items d2 y) as [i2|e2] eqn:E2; cbn [bindR]; auto.
  2:{ apply Ee in E1 as [_ ->], E2 as [_ ->]. reflexivity. }
  rewrite (Nat.eqb_sym (length i2)). destruct (Nat.eqb_spec (length i1) (length i2)) as [Hl | Hl]; cbn [negb].
  - destruct nc; cbn [negb]; [apply items_sym|]. now rewrite strs_eqb_sym.
  - destruct i1 as [|u1 [|u2 u]], i2 as [|v1 [|v2 v]]; cbn in Hl; try lia; try reflexivity.
    all: match goal with |- (if ?c then _ else _) = _ => destruct c eqn:?; auto | |- _ = (if ?c then _ else _) => destruct c eqn:?; auto end.
Qed.
Lemma sections_sym nc ap d1 d2 l1 : forall l2, compareSections l1 l2 nc ap d1 d2 = compareSections l2 l1 nc ap d2 d1.
Proof.
  induction l1 as [|a l1 IH]; intros [|b l2]; try reflexivity. cbn [Compare.compareSections].
  now rewrite line_sym, IH.
Qed.
End Laws.

(** * C44 *)
Section C44.
Context {num : Type} `{NumOps num} `{CmpOps num}.
(** Every section is equal to itself, in every mode, when both sides use the
    same delimiter. *)
Theorem C44_reflexive (l : list str) (number_clever approx : bool) (d : option str) :
  parse_law num -> d <> Some [] ->
  compareSections (num:=num) l l number_clever approx d d = Ok true.
Proof. intros. now apply sections_refl. Qed.

(** Swapping the arguments does not change the result, whether it is a verdict
    or an exception. *)
Theorem C44_symmetric (opp : num -> num -> Prop) (l1 l2 : list str) (number_clever approx : bool) (d1 d2 : option str) :
  ratio_laws num opp ->
  compareSections (num:=num) l2 l1 number_clever approx d2 d1 = compareSections l1 l2 number_clever approx d1 d2.
Proof. intros L. symmetry. now apply (sections_sym opp L). Qed.

(** The same for whole files, unless the name of one is excluded. *)
Theorem C44_files_symmetric (opp : num -> num -> Prop) (n1 n2 c1 c2 : str) (header body number_clever approx : bool)
    (d1 d2 : option str) (v1 v2 : option bool) :
  ratio_laws num opp ->
  compNAFiles (num:=num) n1 c1 c2 header body number_clever approx d1 d2 = Ok v1 ->
  compNAFiles (num:=num) n2 c2 c1 header body number_clever approx d2 d1 = Ok v2 ->
  v1 = None \/ v2 = None \/ v1 = v2.
Proof.
  intros L. unfold compNAFiles. destruct (excluded n1); [intros [= <-]; auto|]. destruct (excluded n2); [intros _ [= <-]; auto|].
  intros E1 E2. right. right.
  repeat match type of E1 with
  | bindR ?x _ = _ => lazymatch x with (if _ then _ else _) => fail | _ => destruct x; cbn [bindR] in E1, E2; try discriminate end
  end.
  destruct header, body;
    repeat match type of E2 with context [compareSections ?a ?b ?nc ?ap d2 d1] =>
      rewrite (C44_symmetric opp b a nc ap d1 d2 L) in E2 end; congruence.
Qed.
End C44.

Definition ll (l : list pylit) : list str := map lit l.
Example C44_laws_hold : parse_law Q /\ ratio_laws Q q_opp.
Proof. split; [exact q_parse_law|exact q_laws]. Qed.
Example C44_nontrivial :
  compareSections (num:=Q) (ll ["1.50,2"; "text"]%pylit) (ll ["1.5 2"; "text"]%pylit) true true (Some (lit ",")) None = Ok true
  /\ compareSections (num:=Q) (ll ["1.5,2"]%pylit) (ll ["1.5 -2"]%pylit) true true (Some (lit ",")) None = Ok false
  /\ compareSections (num:=Q) (ll ["1.5 -2"]%pylit) (ll ["1.5,2"]%pylit) true true None (Some (lit ",")) = Ok false.
Proof. repeat split; vm_compute; reflexivity. Qed.

(** * C45 *)
(** Two sections of different length are reported as the same. *)
Theorem C45_refuted :
  exists l1 l2 : list str, length l1 <> length l2
    /\ compareSections (num:=Q) l1 l2 true false None None = Ok true.
Proof. exists (ll ["1"]%pylit), (ll ["1"; "2"]%pylit). split; [discriminate|reflexivity]. Qed.

Lemma is_letter_table c : is_letter c = mem_chr c letters.
Proof.
  destruct (N.ltb_spec c 123) as [L | L].
  - assert (Q : forallb (fun n => Bool.eqb (is_letter (N.of_nat n)) (mem_chr (N.of_nat n) letters)) (seq 0 123) = true) by (vm_compute; reflexivity).
    rewrite forallb_forall in Q. specialize (Q (N.to_nat c)). rewrite N2Nat.id in Q. apply Bool.eqb_prop, Q. apply in_seq. lia.
  - assert (A : is_letter c = false).
    { unfold is_letter. destruct (c <=? 90)%N eqn:E1, (c <=? 122)%N eqn:E2; try apply N.leb_le in E1; try apply N.leb_le in E2; lia. }
    rewrite A. symmetry. apply mem_chr_false. intros I.
    assert (Q : forallb (fun x => (x <? 123)%N) letters = true) by (vm_compute; reflexivity). rewrite forallb_forall in Q. specialize (Q _ I). apply N.ltb_lt in Q. lia.
Qed.
Lemma has_letter_iff s : has_letter s = true <-> with_letter s.
Proof.
  unfold has_letter, with_letter. rewrite existsb_exists. split; intros (c & I & J); exists c; (split; [exact I |]); [apply mem_chr_In; rewrite <- is_letter_table; exact J | rewrite is_letter_table; apply mem_chr_In, J].
Qed.

Section C45.
Context {num : Type} `{NumOps num} `{CmpOps num}.
(** Two items agree: the same text, or equal as numbers. *)
Definition agree (x y : str) : Prop :=
  match num_parse x, num_parse y with
  | Some a, Some b => num_eqb (num:=num) a b = true
  | _, _ => x = y
  end.
(** Two (stripped) lines agree: both are the same line with a letter in it, or
    their items agree one by one, or one of them was not split by its delimiter
    and agrees with the other after splitting at white space. *)
Definition lines_agree (number_clever : bool) (d1 d2 : option str) (a b : str) : Prop :=
  (with_letter a /\ a = b)
  \/ exists i1 i2, split_items d1 a = Ok i1 /\ split_items d2 b = Ok i2
     /\ ((length i1 = length i2 /\ if number_clever then Forall2 agree i1 i2 else i1 = i2)
         \/ (length i1 <> length i2 /\ ((exists x, i1 = [x] /\ split_ws x = i2) \/ (exists y, i2 = [y] /\ split_ws y = i1)))).

Lemma items_agree i1 : forall i2, length i1 = length i2 ->
  (items_same (num:=num) false i1 i2 = Ok true <-> Forall2 agree i1 i2).
Proof.
  induction i1 as [|x i1 IH]; intros [|y i2] Hl; cbn in Hl; try lia.
  - split; [constructor|reflexivity].
  - cbn [items_same]. assert (K : exists s, item_same (num:=num) false x y = Ok s /\ (s = true <-> agree x y)).
    { unfold item_same, agree. destruct (num_parse x) as [a|], (num_parse y) as [b|].
      - exists (num_eqb a b). destruct (num_eqb a b); split; auto; tauto.
      - exists (str_eqb x y). destruct (str_eqb x y) eqn:E; (split; [reflexivity|]); rewrite <- str_eqb_eq, E; tauto.
      - exists (str_eqb x y). destruct (str_eqb x y) eqn:E; (split; [reflexivity|]); rewrite <- str_eqb_eq, E; tauto.
      - exists (str_eqb x y). destruct (str_eqb x y) eqn:E; (split; [reflexivity|]); rewrite <- str_eqb_eq, E; tauto. }
    destruct K as (s & -> & Hs). cbn [bindR]. destruct s.
    + rewrite IH by lia. split; [intros F; constructor; tauto|]. intros F. now inversion F.
    + split; [discriminate|]. intros F. inversion F. exfalso. assert (false = true) by tauto. discriminate.
Qed.
Lemma items_verdict i1 : forall i2, exists s, items_same (num:=num) false i1 i2 = Ok s.
Proof.
  induction i1 as [|x i1 IH]; intros [|y i2]; cbn [items_same]; eauto.
  unfold item_same. destruct (num_parse x) as [a|], (num_parse y) as [b|].
  1: destruct (num_eqb a b). all: try destruct (str_eqb x y); cbn [bindR]; eauto.
Qed.
Lemma line_agree nc d1 d2 a b : d1 <> Some [] -> d2 <> Some [] ->
  exists s, line_same (num:=num) nc false d1 d2 a b = Ok s /\ (s = true <-> lines_agree nc d1 d2 (strip a) (strip b)).
Proof.
  intros H1 H2. unfold line_same. cbv zeta. set (x := strip a). set (y := strip b).
  destruct (has_letter x && str_eqb x y) eqn:El.
  { exists true. split; [reflexivity|]. split; [|reflexivity]. intros _. left. apply andb_true_iff in El as [E1 E2].
    apply str_eqb_eq in E2. apply has_letter_iff in E1. auto. }
  assert (Nl : ~ (with_letter x /\ x = y)).
  { intros [E1 <-]. apply has_letter_iff in E1. rewrite E1, str_eqb_refl in El. discriminate. }
  destruct (split_items_ok d1 x H1) as [i1 E1]. destruct (split_items_ok d2 y H2) as [i2 E2]. rewrite E1, E2. cbn [bindR].
  assert (Hag : lines_agree nc d1 d2 x y <->
    ((length i1 = length i2 /\ if nc then Forall2 agree i1 i2 else i1 = i2)
     \/ (length i1 <> length i2 /\ ((exists x, i1 = [x] /\ split_ws x = i2) \/ (exists y, i2 = [y] /\ split_ws y = i1))))).
  { unfold lines_agree. rewrite E1, E2. split.
    - intros [K | (j1 & j2 & J1 & J2 & K)]; [tauto|]. injection J1 as <-. injection J2 as <-. exact K.
    - intros K. right. exists i1, i2. auto. }
  destruct (Nat.eqb_spec (length i1) (length i2)) as [Hl | Hl]; cbn [negb].
  - destruct nc; cbn [negb].
    + destruct (items_verdict i1 i2) as [s Es]. exists s. split; [exact Es|]. rewrite Hag, <- items_agree, Es by exact Hl.
      split; [intros ->; auto|]. intros [[_ [= ->]] | [K _]]; [reflexivity|contradiction].
    + exists (strs_eqb i1 i2). split; [reflexivity|]. rewrite Hag, strs_eqb_eq. tauto.
  - assert (Q1 : forall P Q : Prop, (length i1 = length i2 /\ P) \/ (length i1 <> length i2 /\ Q) <-> Q) by tauto.
    rewrite Q1 in Hag. clear Q1. destruct i1 as [|u1 [|u2 u]].
    + destruct i2 as [|v1 [|v2 v]]; [cbn in Hl; lia| |].
      * exists (strs_eqb (split_ws v1) []). split; [reflexivity|]. rewrite Hag, strs_eqb_eq. split.
        -- intros E. right. eauto.
        -- intros [(? & [=] & _) | (? & [= <-] & K)]. exact K.
      * exists false. split; [reflexivity|]. rewrite Hag. split; [discriminate|].
        intros [(? & [=] & _) | (? & [=] & _)].
    + exists (strs_eqb (split_ws u1) i2). split.
      { destruct (strs_eqb (split_ws u1) i2); [reflexivity|]. destruct i2 as [|v1 [|v2 v]]; cbn in Hl; try lia; reflexivity. }
      rewrite Hag, strs_eqb_eq. split; [left; eauto|].
      intros [(? & [= <-] & K) | (? & -> & _)]; [exact K|]. cbn in Hl. lia.
    + destruct i2 as [|v1 [|v2 v]].
      * exists false. split; [reflexivity|]. rewrite Hag. split; [discriminate|]. intros [(? & [=] & _) | (? & [=] & _)].
      * exists (strs_eqb (split_ws v1) (u1 :: u2 :: u)). split; [reflexivity|]. rewrite Hag, strs_eqb_eq. split.
        -- intros E. right. eauto.
        -- intros [(? & [=] & _) | (? & [= <-] & K)]. exact K.
      * exists false. split; [reflexivity|]. rewrite Hag. split; [discriminate|]. intros [(? & [=] & _) | (? & [=] & _)].
Qed.
Lemma sections_agree nc d1 d2 : d1 <> Some [] -> d2 <> Some [] -> forall l1 l2,
  exists s, compareSections (num:=num) l1 l2 nc false d1 d2 = Ok s
  /\ (s = true <-> forall i a b, nth_error l1 i = Some a -> nth_error l2 i = Some b ->
                   lines_agree nc d1 d2 (strip a) (strip b)).
Proof.
  intros H1 H2. induction l1 as [|a l1 IH]; intros [|b l2].
  - exists true. split; [reflexivity|]. split; [|reflexivity]. intros _ [|i]; discriminate.
  - exists true. split; [reflexivity|]. split; [|reflexivity]. intros _ [|i]; discriminate.
  - exists true. split; [reflexivity|]. split; [|reflexivity]. intros _ [|i]; discriminate.
  - cbn [compareSections]. destruct (line_agree nc d1 d2 a b H1 H2) as (s & -> & Hs). destruct (IH l2) as (r & -> & Hr).
    cbn [bindR]. exists (s && r). split; [reflexivity|]. rewrite andb_true_iff, Hs, Hr. split.
    + intros [K1 K2] [|i] x y; [intros [= <-] [= <-]; exact K1|apply K2].
    + intros K. split; [exact (K O a b eq_refl eq_refl)|]. intros i x y. exact (K (S i) x y).
Qed.

(** What does hold: without approx_equal the verdict is equality exactly when
    the lines at every common position agree. *)
Theorem C45_common_lines_partial (l1 l2 : list str) (number_clever : bool) (d1 d2 : option str) :
  d1 <> Some [] -> d2 <> Some [] ->
  (compareSections (num:=num) l1 l2 number_clever false d1 d2 = Ok true
   <-> forall i a b, nth_error l1 i = Some a -> nth_error l2 i = Some b ->
       lines_agree number_clever d1 d2 (strip a) (strip b)).
Proof.
  intros H1 H2. destruct (sections_agree number_clever d1 d2 H1 H2 l1 l2) as (s & -> & Hs). rewrite <- Hs.
  split; [now intros [= ->]|now intros ->].
Qed.
End C45.
Example C45_example :
  compareSections (num:=Q) (ll ["1.50 2"; "text"]%pylit) (ll ["1.5 2"; "text"; "more"]%pylit) true false None None = Ok true
  /\ compareSections (num:=Q) (ll ["1.50 2"; "text"]%pylit) (ll ["1.5 2"; "next"]%pylit) true false None None = Ok false
  /\ compareSections (num:=Q) (ll ["1.50 2"; "text"]%pylit) (ll ["1.5 2"; "text"]%pylit) false false None None = Ok false.
Proof. repeat split; vm_compute; reflexivity. Qed.

(** * C46 *)
Lemma same_length {A B} (P : A -> B -> Prop) l m : Forall2 P l m -> length l = length m.
Proof. induction 1; cbn; congruence. Qed.
(** Numbers that differ by a factor of 1000 are reported as approximately equal. *)
Theorem C46_refuted :
  exists x y a b, num_parse x = Some a /\ num_parse y = Some b
    /\ (b > a * (101 # 100))%Q /\ (a > 0)%Q
    /\ compareSections (num:=Q) [x] [y] true true None None = Ok true.
Proof.
  exists (lit "1"), (lit "1000"), 1%Q, (1000 # 1)%Q. repeat split; vm_compute; reflexivity.
Qed.

Section C46.
Context {num : Type} `{NumOps num} `{CmpOps num}.
(** The numbers of a line without letters. *)
Definition numbers_of (d : option str) (line : str) (v : list num) : Prop :=
  exists items, split_items d (strip line) = Ok items /\ Forall2 (fun s x => num_parse s = Some x) items v.
Lemma items_approx (opp : num -> num -> Prop) (L : ratio_laws num opp) i1 v1 :
  Forall2 (fun s x => num_parse s = Some x) i1 v1 -> forall i2 v2,
  Forall2 (fun s x => num_parse s = Some x) i2 v2 -> length v1 = length v2 ->
  exists s, items_same (num:=num) true i1 i2 = Ok s
  /\ (s = true <-> Forall2 (fun x y => num_eqb x y = true \/ ~ opp (no_zero x) (no_zero y)) v1 v2).
Proof.
  induction 1 as [|x a i1 v1 Hx _ IH]; intros i2 v2 F2 Hl; destruct F2 as [|y b i2 v2 Hy F2]; cbn in Hl; try lia.
  - exists true. split; [reflexivity|]. split; [constructor|reflexivity].
  - cbn [items_same]. unfold item_same. rewrite Hx, Hy. destruct (IH i2 v2 F2) as (r & Hr & Kr); [lia|].
    destruct (num_eqb a b) eqn:E; cbn [bindR].
    + exists r. split; [exact Hr|]. rewrite Kr. split; [intros F; constructor; auto|]. intros F. now inversion F.
    + pose proof (approx_iff opp L a b) as Ka. destruct (approx_differ a b); cbn [negb].
      * exists false. split; [reflexivity|]. split; [discriminate|]. intros F. inversion F as [|? ? ? ? K]. exfalso.
        destruct K as [K | K]; [congruence|]. apply K. now apply Ka.
      * exists r. split; [exact Hr|]. rewrite Kr. split; [|intros F; now inversion F]. intros F. constructor; [|exact F].
        right. intros K. apply Ka in K. discriminate.
Qed.

(** What approx_equal does report: two lines of numbers are different exactly
    when at some position the numbers differ and, zero counting as positive,
    have opposite signs. *)
Theorem C46_signs_partial (opp : num -> num -> Prop) (a b : str) (d1 d2 : option str) (v1 v2 : list num) :
  ratio_laws num opp -> has_letter (strip a) = false ->
  numbers_of d1 a v1 -> numbers_of d2 b v2 -> length v1 = length v2 ->
  (compareSections (num:=num) [a] [b] true true d1 d2 = Ok true
   <-> Forall2 (fun x y => num_eqb x y = true \/ ~ opp (no_zero x) (no_zero y)) v1 v2).
Proof.
  intros L Hn (i1 & E1 & F1) (i2 & E2 & F2) Hl. cbn [compareSections]. unfold line_same. cbv zeta.
  rewrite Hn. cbn [andb]. rewrite E1, E2. cbn [bindR].
  assert (Hl' : length i1 = length i2).
  { pose proof (same_length _ _ _ F1). pose proof (same_length _ _ _ F2). lia. }
  rewrite Hl', Nat.eqb_refl. cbn [negb]. destruct (items_approx opp L _ _ F1 _ _ F2 Hl) as (s & -> & <-). cbn [bindR].
  rewrite andb_true_r. split; [now intros [= ->]|now intros ->].
Qed.
(** In particular opposite signs are always noticed and equal numbers never
    reported. *)
End C46.
Example C46_example :
  compareSections (num:=Q) (ll ["1 0 5"]%pylit) (ll ["1.00 7 5000"]%pylit) true true None None = Ok true
  /\ compareSections (num:=Q) (ll ["1 0 5"]%pylit) (ll ["1.00 -7 5"]%pylit) true true None None = Ok false
  /\ numbers_of (num:=Q) None (lit "1 0 5") [1%Q; 0%Q; 5 # 1].
Proof.
  repeat split; try (vm_compute; reflexivity). exists (ll ["1"; "0"; "5"]%pylit). split; [reflexivity|]. repeat constructor.
Qed.

(** * C47 *)
Definition nlc (l : list pylit) : str := concat (map (fun s => lit s ++ [c_nl]) l).
(** Files with different headers are reported as the same. *)
Theorem C47_refuted :
  exists c1 c2 : str,
    compNAFiles (num:=Q) (lit "a.na") c1 c2 true false true false None None = Ok (Some false)
    /\ compNAFiles (num:=Q) (lit "a.na") c1 c2 true true true false None None = Ok (Some true).
Proof.
  exists (nlc ["2 1001"; "First header"; "1 2"]%pylit), (nlc ["2 1001"; "Second header"; "1 2"]%pylit).
  split; vm_compute; reflexivity.
Qed.

Section C47.
Context {num : Type} `{NumOps num} `{CmpOps num}.
(** The number of header lines as the first line of the file gives it. *)
Definition header_length (d : option str) (content : str) (n : nat) : Prop :=
  exists first rest item items z, readlines content = first :: rest /\ split_items d first = Ok (item :: items)
    /\ int_of_str item = Some z /\ z = Z.of_nat n.
(** What holds: the verdict is that of the last compared section; if a body is
    compared it is the verdict on the bodies, otherwise the one on the headers. *)
Theorem C47_last_section_partial (name c1 c2 : str) (header body number_clever approx : bool) (d1 d2 : option str)
    (n1 n2 : nat) (verdict : option bool) :
  header_length d1 c1 n1 -> header_length d2 c2 n2 ->
  compNAFiles (num:=num) name c1 c2 header body number_clever approx d1 d2 = Ok verdict ->
  excluded name = true /\ verdict = None
  \/ exists same, verdict = Some same
     /\ (body = true -> compareSections (num:=num) (skipn n1 (readlines c1)) (skipn n2 (readlines c2)) number_clever approx d1 d2 = Ok same)
     /\ (body = false -> header = true ->
         compareSections (num:=num) (firstn n1 (readlines c1)) (firstn n2 (readlines c2)) number_clever approx d1 d2 = Ok same).
Proof.
  intros (f1 & r1 & i1 & is1 & z1 & E1 & S1 & I1 & Z1) (f2 & r2 & i2 & is2 & z2 & E2 & S2 & I2 & Z2).
  unfold compNAFiles. destruct (excluded name); [intros [= <-]; auto|]. rewrite E1, E2.
  cbn [nth_res nth_error of_opt bindR]. rewrite S1. cbn [bindR nth_res nth_error of_opt]. rewrite I1. cbn [of_opt bindR].
  rewrite S2. cbn [bindR nth_res nth_error of_opt]. rewrite I2. cbn [of_opt bindR].
  rewrite <- E1, <- E2. subst z1 z2. rewrite !slice_to_nat, !slice_from_nat. intros K. right.
  destruct header.
  - destruct (compareSections (firstn n1 (readlines c1)) (firstn n2 (readlines c2)) number_clever approx d1 d2) as [h|]; [|discriminate].
    cbn [bindR] in K. destruct body.
    + destruct (compareSections (skipn n1 (readlines c1)) (skipn n2 (readlines c2)) number_clever approx d1 d2) as [s|]; [|discriminate].
      injection K as <-. exists s. repeat split; try reflexivity; discriminate.
    + injection K as <-. exists h. repeat split; try reflexivity; discriminate.
  - cbn [bindR] in K. destruct body.
    + destruct (compareSections (skipn n1 (readlines c1)) (skipn n2 (readlines c2)) number_clever approx d1 d2) as [s|]; [|discriminate].
      injection K as <-. exists s. repeat split; try reflexivity; discriminate.
    + injection K as <-. exists true. repeat split; try reflexivity; discriminate.
Qed.
End C47.
Example C47_example :
  let c1 := nlc ["2 1001"; "A header"; "1 2"]%pylit in
  let c2 := nlc ["2 1001"; "A header"; "1 3"]%pylit in
  compNAFiles (num:=Q) (lit "a.na") c1 c2 true true true false None None = Ok (Some false)
  /\ compNAFiles (num:=Q) (lit "a.na") c1 c2 true false true false None None = Ok (Some true)
  /\ compNAFiles (num:=Q) (lit ".svn") c1 c2 true true true false None None = Ok None
  /\ header_length None c1 2.
Proof.
  repeat split; try (vm_compute; reflexivity). exists (lit "2 1001" ++ [c_nl]), (map (fun s => lit s ++ [c_nl]) ["A header"; "1 2"]%pylit),
    (lit "2"), [lit "1001"], 2%Z. repeat split; vm_compute; reflexivity.
Qed.

(** * C58: the line by line comparison of compare.py *)
Lemma compFiles_from_spec l1 : forall k l2 i, In i (compFiles_from k l1 l2) <->
  exists j a b, i = (k + j)%nat /\ nth_error l1 j = Some a /\ nth_error l2 j = Some b /\ a <> b.
Proof.
  induction l1 as [|x l1 IH]; intros k [|y l2] i.
  1-3: cbn; split; [intros []|]; intros ([|j] & a & b & _ & E1 & E2 & _); discriminate.
  cbn [compFiles_from]. rewrite in_app_iff, IH. split.
  - intros [K | (j & a & b & -> & K)].
    + destruct (str_eqb x y) eqn:E; [destruct K|]. destruct K as [<- | []]. exists O, x, y. repeat split; [lia|].
      intros ->. now rewrite str_eqb_refl in E.
    + exists (S j), a, b. split; [lia|]. exact K.
  - intros ([|j] & a & b & -> & E1 & E2 & Hn).
    + left. injection E1 as <-. injection E2 as <-. destruct (str_eqb x y) eqn:E; [now apply str_eqb_eq in E|]. left. lia.
    + right. exists j, a, b. repeat split; auto. lia.
Qed.
(** compFiles reports exactly the (one based) numbers of the lines that exist in
    both files and differ. *)
Theorem C58_reported_lines (name c1 c2 : str) (reported : list nat) (i : nat) :
  compFiles name c1 c2 = Some reported ->
  (In (S i) reported <-> exists a b, nth_error (readlines c1) i = Some a /\ nth_error (readlines c2) i = Some b /\ a <> b).
Proof.
  unfold compFiles. destruct (excluded name); [discriminate|]. intros [= <-]. rewrite compFiles_from_spec. split.
  - intros (j & a & b & E & K). injection E as <-. eauto.
  - intros (a & b & K). exists i, a, b. split; [reflexivity|exact K].
Qed.
Example C58_example :
  compFiles (lit "f") (nlc ["a"; "b"; "c"]%pylit) (nlc ["a"; "x"]%pylit) = Some [2%nat].
Proof. reflexivity. Qed.

Print Assumptions C44_reflexive.
Print Assumptions C44_symmetric.
Print Assumptions C44_files_symmetric.
Print Assumptions C44_laws_hold.
Print Assumptions C45_refuted.
Print Assumptions C45_common_lines_partial.
Print Assumptions C46_refuted.
Print Assumptions C46_signs_partial.
Print Assumptions C47_refuted.
Print Assumptions C47_last_section_partial.
Print Assumptions C58_reported_lines.
