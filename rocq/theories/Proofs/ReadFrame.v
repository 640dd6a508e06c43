(** What a header reader does to the attributes: frame rules and the shape of
    what it stores, for arbitrary input. *)
From Coq Require Import List NArith ZArith Bool Lia.
From Verif Require Import Py.Str Py.Res Py.Num Model.Dict Model.TextParser Model.CommonUtils Model.NARead
  Spec.TextSpec Spec.ReadSpec Proofs.StrLemmas Proofs.TextLemmas.
Import ListNotations.

Lemma mapR_length {A B} (f : A -> Res B) l r : mapR f l = Ok r -> length r = length l.
Proof.
  revert r. induction l as [|x l IH]; cbn [mapR]; intros r E; [now injection E as <-|].
  destruct (f x); cbn [bindR] in E; [|discriminate]. destruct (mapR f l) as [ys|]; cbn [bindR] in E; [|discriminate].
  injection E as <-. cbn. now rewrite (IH ys).
Qed.
Lemma mapR_nth {A B} (f : A -> Res B) l r i x : mapR f l = Ok r -> nth_error l i = Some x ->
  exists y, f x = Ok y /\ nth_error r i = Some y.
Proof.
  revert r i. induction l as [|a l IH]; cbn [mapR]; intros r i E Hi; [destruct i; discriminate|].
  destruct (f a) as [b|] eqn:Ea; cbn [bindR] in E; [|discriminate]. destruct (mapR f l) as [ys|] eqn:El; cbn [bindR] in E; [|discriminate].
  injection E as <-. destruct i as [|i]; cbn in Hi |- *; [injection Hi as <-; eauto|]. exact (IH ys i eq_refl Hi).
Qed.
Lemma mapR_all {A B} (f : A -> Res B) (P : B -> Prop) l r :
  (forall x y, f x = Ok y -> P y) -> mapR f l = Ok r -> Forall P r.
Proof.
  intros Hf. revert r. induction l as [|x l IH]; cbn [mapR]; intros r E; [injection E as <-; constructor|].
  destruct (f x) eqn:Ex; cbn [bindR] in E; [|discriminate]. destruct (mapR f l) as [ys|]; cbn [bindR] in E; [|discriminate].
  injection E as <-. constructor; eauto.
Qed.
Lemma mapR_ok {A B} (f : A -> Res B) l : (forall x, In x l -> exists y, f x = Ok y) -> exists r, mapR f l = Ok r.
Proof.
  induction l as [|x l IH]; intros Hf; [now exists []|].
  destruct (Hf x) as [y Ey]; [now left|]. destruct IH as [r Er]; [intros z Hz; apply Hf; now right|].
  exists (y :: r). cbn [mapR]. now rewrite Ey, Er.
Qed.

Section Frame.
Context {num : Type} `{NumOps num}.
Local Notation R := (R num).

Lemma bindRd_inv {A B} (m : R A) (f : A -> R B) st r : bindRd m f st = Ok r ->
  exists a s1, m st = Ok (a, s1) /\ f a s1 = Ok r.
Proof. unfold bindRd. destruct (m st) as [[a s1]|]; [eauto|discriminate]. Qed.
Lemma liftR_inv {A} (x : Res A) (st : rst num) a s1 : liftR x st = Ok (a, s1) -> x = Ok a /\ s1 = st.
Proof. unfold liftR. destruct x; [|discriminate]. intros E. now injection E as <- <-. Qed.
Lemma retR_inv {A} (x : A) (st : rst num) a s1 : retR x st = Ok (a, s1) -> a = x /\ s1 = st.
Proof. unfold retR. intros E. now injection E as <- <-. Qed.

(** [m] leaves the attributes alone and returns a value with [Q]. *)
Definition quiet {A} (m : R A) (Q : A -> Prop) : Prop :=
  forall st a st', m st = Ok (a, st') -> r_na st' = r_na st /\ Q a.

Lemma q_readline : quiet readline (fun _ => True).
Proof. intros st a st' E. unfold readline in E. destruct (r_lines st); injection E as <- <-; cbn; auto. Qed.
Lemma q_lift {A} (x : Res A) : quiet (liftR x) (fun a => x = Ok a).
Proof. intros st a st' E. apply liftR_inv in E as [-> ->]. auto. Qed.
Lemma q_ret {A} (x : A) : quiet (retR x) (fun a => a = x).
Proof. intros st a st' E. apply retR_inv in E as [-> ->]. auto. Qed.
Lemma key_beq_refl k : key_beq k k = true. Proof. destruct k; reflexivity. Qed.
Lemma key_beq_true k k' : key_beq k k' = true -> k = k'.
Proof. apply internal_key_dec_bl. Qed.
Lemma key_beq_neq k k' : k <> k' -> key_beq k k' = false.
Proof. intros Hn. destruct (key_beq k k') eqn:E; [|reflexivity]. apply key_beq_true in E. contradiction. Qed.
Lemma upd_same (d : na num) k v : upd d k v k = Some v.
Proof. unfold upd. now rewrite key_beq_refl. Qed.
Lemma upd_other (d : na num) k v k' : k <> k' -> upd d k v k' = d k'.
Proof. intros Hn. unfold upd. now rewrite key_beq_neq. Qed.
Lemma set_inv k v (st : rst num) a st' : NARead.set k v st = Ok (a, st') -> r_na st' = upd (r_na st) k v.
Proof. unfold NARead.set. intros E. now injection E as <- <-. Qed.
Lemma get_inv k (st : rst num) a st' : get k st = Ok (a, st') -> r_na st' = r_na st /\ a = attr (r_na st) k.
Proof. unfold get. intros E. injection E as <- <-. auto. Qed.
Lemma get_int_inv k (st : rst num) a st' : get_int k st = Ok (a, st') -> r_na st' = r_na st /\ attr (r_na st) k = PInt a.
Proof.
  intros E. apply bindRd_inv in E as (v & s1 & E1 & E2).
  unfold get in E1. injection E1 as <- <-. apply liftR_inv in E2 as [E2 ->]. split; [auto|].
  destruct (attr (r_na st) k); try discriminate. now injection E2 as ->.
Qed.
Lemma get_list_inv k (st : rst num) a st' : get_list k st = Ok (a, st') -> r_na st' = r_na st /\ as_list (attr (r_na st) k) = Ok a.
Proof.
  intros E. apply bindRd_inv in E as (v & s1 & E1 & E2).
  unfold get in E1. injection E1 as <- <-. apply liftR_inv in E2 as [E2 ->]. auto.
Qed.
Definition of_type (t : rttype) (v : pyv num) : Prop :=
  match t with
  | TStr => exists s, v = PStr s
  | TInt => exists z, v = PInt z
  | TFloat => exists x, v = PNum x
  end.
Lemma conv_type t s v : conv t s = Ok v -> of_type t v.
Proof.
  destruct t; cbn [conv of_type]; intros E; [injection E as <-; eauto| |].
  - destruct (int_of_str s); [injection E as <-; eauto|discriminate].
  - destruct (num_parse s); [injection E as <-; eauto|discriminate].
Qed.
Lemma q_item_line t : quiet (item_line t) (fun v => of_type t v).
Proof.
  intros st a st' E. apply bindRd_inv in E as (l & s1 & E1 & E2).
  destruct (q_readline _ _ _ E1) as [F _]. apply liftR_inv in E2 as [E2 ->]. split; [auto|].
  unfold readItemFromLine in E2. eapply conv_type, E2.
Qed.
Lemma q_items_line n t : quiet (items_line n t)
  (fun l => Forall (of_type t) l /\ (n <> 0%Z -> Z.of_nat (length l) = n)).
Proof.
  intros st a st' E. apply bindRd_inv in E as (l & s1 & E1 & E2).
  destruct (q_readline _ _ _ E1) as [F _]. apply liftR_inv in E2 as [E2 ->]. split; [auto|].
  unfold readItemsFromLine in E2.
  destruct (negb (n =? 0)%Z && negb (Z.of_nat (length (re_split (strip (right_strip_braces l)))) =? n)%Z) eqn:Eb; [discriminate|].
  split; [eapply mapR_all; [|exact E2]; intros; eapply conv_type; eauto|].
  intros Hn. rewrite (mapR_length _ _ _ E2). destruct (Z.eqb_spec n 0); [contradiction|]. cbn in Eb.
  destruct (Z.eqb_spec (Z.of_nat (length (re_split (strip (right_strip_braces l))))) n); [auto|discriminate].
Qed.
Lemma q_read_n_lines n : quiet (read_n_lines n) (fun l => length l = n).
Proof.
  induction n as [|n IH]; cbn [read_n_lines].
  - intros st a st' E. apply retR_inv in E as [-> ->]. auto.
  - intros st a st' E. apply bindRd_inv in E as (l & s1 & E1 & E2). apply bindRd_inv in E2 as (ls & s2 & E2 & E3).
    destruct (q_readline _ _ _ E1) as [F1 _]. destruct (IH _ _ _ E2) as [F2 K]. apply retR_inv in E3 as [-> ->].
    split; [congruence|]. cbn. now rewrite K.
Qed.
Lemma q_readLines n : quiet (readLines n) (fun l => length l = Z.to_nat n).
Proof. apply q_read_n_lines. Qed.
Lemma q_names n : quiet (names n) (fun l => Forall (of_type TStr) l /\ length l = Z.to_nat n).
Proof.
  intros st a st' E. apply bindRd_inv in E as (l & s1 & E1 & E2).
  destruct (q_readLines _ _ _ _ E1) as [F K]. apply liftR_inv in E2 as [E2 ->]. split; [auto|]. split.
  - eapply mapR_all; [|exact E2]. intros x y Ex. cbv beta in Ex. unfold readItemFromLine in Ex. eapply conv_type, Ex.
  - rewrite (mapR_length _ _ _ E2). exact K.
Qed.
Lemma unknown_loop_len eof n ls : forall items ex r, unknown_loop eof n items ex ls = Ok r ->
  (n <= Z.of_nat (length (fst (fst r))))%Z.
Proof.
  induction ls as [|l ls IH]; intros items ex r E; cbn [unknown_loop] in E;
  destruct (Z.ltb_spec (Z.of_nat (length items)) n) as [Hlt|Hge].
  - discriminate.
  - injection E as <-. cbn. lia.
  - eapply IH, E.
  - injection E as <-. cbn. lia.
Qed.
Lemma mapR_words l : forall r, mapR (conv (num:=num) TStr) l = Ok r -> Forall word l -> Forall is_word r.
Proof.
  induction l as [|w l IH]; intros r E F; cbn [mapR] in E; [injection E as <-; constructor|].
  cbn [conv bindR] in E. destruct (mapR _ l) as [r'|]; cbn [bindR] in E; [|discriminate]. injection E as <-.
  inversion F; subst. constructor; [eexists; split; [reflexivity|assumption]|now apply IH].
Qed.
Lemma unknown_loop_words eof n ls : forall items ex r, unknown_loop eof n items ex ls = Ok r -> Forall word items -> Forall word (fst (fst r)).
Proof.
  induction ls as [|l ls IH]; intros items ex r E F; cbn [unknown_loop] in E; destruct (_ <? n)%Z; try discriminate; try (injection E as <-; exact F).
  eapply IH; [exact E|]. apply Forall_app. split; [exact F|].
  assert (W : Forall word (split_ws (strip (right_strip_braces l)))).
  { eapply Forall_impl; [|apply split_ws_words]. intros w K. now apply word_no_sp. }
  rewrite Forall_forall in W |- *. intros w I. apply W. unfold slice_to in I.
  match type of I with In _ (firstn ?k ?l) => rewrite <- (firstn_skipn k l); apply in_or_app; left; exact I end.
Qed.
Lemma q_items_unknown n t : quiet (items_unknown n t)
  (fun l => Forall (of_type t) l /\ (n <= Z.of_nat (length l))%Z /\ (0 < n)%Z /\ (t = TStr -> Forall is_word l)).
Proof.
  intros st a st' E. unfold items_unknown in E.
  destruct (readItemsFromUnknownLines EHang (r_lines st) n t) as [[items rest]|] eqn:Er; [|discriminate].
  injection E as <- <-. cbn [r_na]. split; [auto|].
  unfold readItemsFromUnknownLines in Er.
  destruct (unknown_loop EHang n [] None (r_lines st)) as [[[its ex] rs]|] eqn:El; cbn [bindR] in Er; [|discriminate].
  destruct ex as [[|x ex]|]; try discriminate.
  destruct (mapR (conv t) its) as [vs|] eqn:Em; cbn [bindR] in Er; [|discriminate]. injection Er as <- <-.
  split; [eapply mapR_all; [|exact Em]; intros; eapply conv_type; eauto|].
  pose proof (unknown_loop_len _ _ _ _ _ _ El) as K. cbn in K. rewrite (mapR_length _ _ _ Em). split; [exact K|]. split; cycle 1.
  { intros ->. pose proof (unknown_loop_words _ _ _ _ _ _ El (Forall_nil _)) as W. cbn in W. eapply mapR_words; eassumption. }
  destruct (Z.leb_spec n 0) as [Hn|Hn]; [|lia]. exfalso.
  destruct (r_lines st); cbn [unknown_loop] in El; cbn [length Z.of_nat] in El;
    destruct (Z.ltb_spec 0 n); try lia; discriminate.
Qed.
Lemma q_read_ignored n : quiet (read_ignored n) (fun l => Forall (of_type TStr) l /\ length l = n).
Proof.
  induction n as [|n IH]; cbn [read_ignored].
  - intros st a st' E. apply retR_inv in E as [-> ->]. auto.
  - intros st a st' E. apply bindRd_inv in E as (l & s1 & E1 & E2). apply bindRd_inv in E2 as (ls & s2 & E2 & E3).
    destruct (q_item_line _ _ _ _ E1) as [F1 K1]. destruct (IH _ _ _ E2) as [F2 [K2 K3]]. apply retR_inv in E3 as [-> ->].
    split; [congruence|]. split; [constructor; auto|cbn; now rewrite K3].
Qed.
Lemma q_read_axes l : quiet (read_axes l) (fun ls => length ls = length l /\
  Forall (fun v => exists x, v = PList x /\ x <> [] /\ Forall (of_type TFloat) x) ls).
Proof.
  induction l as [|n l IH]; cbn [read_axes].
  - intros st a st' E. apply retR_inv in E as [-> ->]. auto.
  - intros st a st' E. apply bindRd_inv in E as (z & s0 & E0 & E). apply liftR_inv in E0 as [E0 ->].
    apply bindRd_inv in E as (x & s1 & E1 & E2). apply bindRd_inv in E2 as (ls & s2 & E2 & E3).
    destruct (q_items_unknown _ _ _ _ _ E1) as [F1 K1]. destruct (IH _ _ _ E2) as [F2 [K2 K3]]. apply retR_inv in E3 as [-> ->].
    split; [congruence|]. split; [cbn; now rewrite K2|constructor; [|exact K3]].
    destruct K1 as (T & L & P). exists x. split; [reflexivity|]. split; [intros ->; cbn in L; lia|exact T].
Qed.

End Frame.

(** Split a run into its steps.  What is known of the steps is kept; the
    states of steps that do not touch the attributes are replaced by the
    attributes they started with. *)
Ltac run1 E :=
  match type of E with
  | bindRd _ _ _ = Ok _ =>
      let a := fresh "a" in let s := fresh "s" in let E1 := fresh "E" in
      apply bindRd_inv in E as (a & s & E1 & E); cbv beta in E; run1 E1; run1 E
  | NARead.set _ _ _ = Ok (_, _) => apply set_inv in E
  | get_int _ _ = Ok (_, _) => let F := fresh "F" in apply get_int_inv in E as [F E]
  | get_list _ _ = Ok (_, _) => let F := fresh "F" in apply get_list_inv in E as [F E]
  | get _ _ = Ok (_, _) => let F := fresh "F" in apply get_inv in E as [F E]
  | readline _ = Ok (_, _) => apply q_readline in E as [E _]
  | liftR _ _ = Ok (_, _) => let F := fresh "F" in apply liftR_inv in E as [E F]
  | retR _ _ = Ok (_, _) => let F := fresh "F" in apply retR_inv in E as [E F]
  | item_line _ _ = Ok (_, _) => let F := fresh "F" in apply q_item_line in E as [F E]
  | items_line _ _ _ = Ok (_, _) => let F := fresh "F" in apply q_items_line in E as [F E]
  | names _ _ = Ok (_, _) => let F := fresh "F" in apply q_names in E as [F E]
  | readLines _ _ = Ok (_, _) => let F := fresh "F" in apply q_readLines in E as [F E]
  | items_unknown _ _ _ = Ok (_, _) => let F := fresh "F" in apply q_items_unknown in E as [F E]
  | read_ignored _ _ = Ok (_, _) => let F := fresh "F" in apply q_read_ignored in E as [F E]
  | read_axes _ _ = Ok (_, _) => let F := fresh "F" in apply q_read_axes in E as [F E]
  | _ => idtac
  end.
Ltac run E := run1 E;
  repeat match goal with s : rst _ |- _ => destruct s end; cbn [r_na r_lines] in *;
  repeat match goal with E : mkR _ _ = mkR _ _ |- _ => injection E; clear E; intros end; subst.
Ltac attrs := repeat match goal with
  | E : attr (upd _ _ _) _ = _ |- _ => unfold attr, upd in E; cbn [key_beq] in E
  | E : as_list (attr (upd _ _ _) _) = _ |- _ => unfold attr, upd in E; cbn [key_beq as_list] in E; injection E as <-
  end.

Section Sections.
Context {num : Type} `{NumOps num}.

(** Entries stored by the variables section. *)
Record vars_read (d : na num) (nv : Z) (vs vm vn : list (pyv num)) : Prop := {
  vr_nv : d kNV = Some (PInt nv);
  vr_scal : d kVSCAL = Some (PList vs);
  vr_miss : d kVMISS = Some (PList vm);
  vr_name : d kVNAME = Some (PList vn);
  vr_pos : (0 < nv)%Z;
  vr_ls : (nv <= Z.of_nat (length vs))%Z;
  vr_lm : (nv <= Z.of_nat (length vm))%Z;
  vr_ln : length vn = Z.to_nat nv;
  vr_ts : Forall (of_type TFloat) vs;
  vr_tm : Forall (of_type TFloat) vm;
  vr_tn : Forall (of_type TStr) vn }.

Definition same_except (ks : list key) (d d' : na num) : Prop := forall k, ~ In k ks -> d' k = d k.
Lemma same_refl ks d : same_except ks d d. Proof. intros k _. reflexivity. Qed.
Lemma same_trans ks d1 d2 d3 : same_except ks d1 d2 -> same_except ks d2 d3 -> same_except ks d1 d3.
Proof. intros H1 H2 k Hk. now rewrite H2, H1. Qed.
Lemma same_mono ks ks' d d' : (forall k, In k ks -> In k ks') -> same_except ks d d' -> same_except ks' d d'.
Proof. intros Hi Hs k Hk. apply Hs. auto. Qed.
Lemma same_upd ks d d' k v : same_except ks d d' -> In k ks -> same_except ks d (upd d' k v).
Proof. intros Hs Hi k' Hk'. rewrite upd_other; [auto|]. intros ->. contradiction. Qed.

Ltac same := repeat (apply same_upd; [|cbn; tauto]); apply same_refl.

Ltac fields := repeat match goal with H : _ /\ _ |- _ => destruct H end.
Ltac done_fields := repeat match goal with |- _ /\ _ => split end; solve [reflexivity | eassumption | auto | lia].

Lemma vars_section st u st' : readVariablesHeaderSection st = Ok (u, st') ->
  (exists nv vs vm vn, vars_read (r_na st') nv vs vm vn) /\
  same_except [kNV; kVSCAL; kVMISS; kVNAME] (r_na st) (r_na st').
Proof.
  intros E. unfold readVariablesHeaderSection in E. run E.
  attrs. subst. split; [|same]. fields. do 4 eexists. split; solve [reflexivity | eassumption | auto | lia].
Qed.

(** Entries stored by the auxiliary variables section. *)
Record aux_read (d : na num) (n : Z) : Prop := {
  ar_n : d kNAUXV = Some (PInt n);
  ar_lists : (0 < n)%Z -> exists vs vm vn,
    d kASCAL = Some (PList vs) /\ d kAMISS = Some (PList vm) /\ d kANAME = Some (PList vn) /\
    (n <= Z.of_nat (length vs))%Z /\ (n <= Z.of_nat (length vm))%Z /\ length vn = Z.to_nat n /\
    Forall (of_type TFloat) vs /\ Forall (of_type TFloat) vm /\ Forall (of_type TStr) vn }.
Lemma aux_section st u st' : readAuxVariablesHeaderSection st = Ok (u, st') ->
  (exists n, aux_read (r_na st') n) /\
  same_except [kNAUXV; kASCAL; kAMISS; kANAME] (r_na st) (r_na st').
Proof.
  intros E. unfold readAuxVariablesHeaderSection in E. run E. attrs. subst.
  destruct (Z.ltb_spec 0 a1) as [Hp|Hp].
  - run E. split; [|same]. exists a1. split; [reflexivity|]. intros _.
    fields. do 3 eexists. done_fields.
  - run E. split; [|same]. exists a1. split; [reflexivity|]. intros; lia.
Qed.

(** ... by that of FFI 2160: the numeric ones and the character ones. *)
Record caux_read (d : na num) (n nc : Z) : Prop := {
  cr_n : d kNAUXV = Some (PInt n);
  cr_c : d kNAUXC = Some (PInt nc);
  cr_lists : (0 < n)%Z -> exists vs vm cm vn,
    d kASCAL = Some (PList vs) /\ d kAMISS = Some (PList (vm ++ cm)) /\ d kANAME = Some (PList vn) /\
    (0 < nc)%Z /\ (0 < n - nc)%Z /\
    (n - nc <= Z.of_nat (length vs))%Z /\ (n - nc <= Z.of_nat (length vm))%Z /\ (nc <= Z.of_nat (length cm))%Z /\
    length vn = Z.to_nat n /\
    Forall (of_type TFloat) vs /\ Forall (of_type TFloat) vm /\ Forall (of_type TStr) cm /\ Forall (of_type TStr) vn /\ Forall is_word cm }.
Lemma caux_section st u st' : readCharAuxVariablesHeaderSection st = Ok (u, st') ->
  (exists n nc, caux_read (r_na st') n nc) /\
  same_except [kNAUXV; kNAUXC; kASCAL; kAMISS; kANAME; kLENA] (r_na st) (r_na st').
Proof.
  intros E. unfold readCharAuxVariablesHeaderSection in E. run E. attrs. subst.
  match type of E with context [(0 <? ?n)%Z] => destruct (Z.ltb_spec 0 n) as [Hp|Hp] end.
  - run E. attrs. fields. split; [|same]. do 2 eexists. split; [reflexivity|reflexivity|].
    intros _. do 4 eexists. done_fields.
  - run E. split; [|same]. do 2 eexists. split; [reflexivity|reflexivity|]. intros; lia.
Qed.

Lemma comments_section st u st' : readComments st = Ok (u, st') ->
  (exists n m sc nc, r_na st' kNSCOML = Some (PInt n) /\ r_na st' kSCOM = Some (PList (map PStr sc)) /\ length sc = Z.to_nat n /\
     r_na st' kNNCOML = Some (PInt m) /\ r_na st' kNCOM = Some (PList (map PStr nc)) /\ length nc = Z.to_nat m) /\
  same_except [kNSCOML; kSCOM; kNNCOML; kNCOM] (r_na st) (r_na st').
Proof.
  intros E. unfold readComments in E. run E. attrs. subst. split; [|same]. do 4 eexists. done_fields.
Qed.

Lemma read_ignored_lines n : forall ls (d : na num) vs st', read_ignored n (mkR ls d) = Ok (vs, st') ->
  r_lines st' = skipn n ls.
Proof.
  induction n as [|n IH]; intros ls d vs st' E; cbn [read_ignored] in E.
  - apply retR_inv in E as [_ ->]. reflexivity.
  - apply bindRd_inv in E as (v & s1 & E1 & E2). apply bindRd_inv in E2 as (vs2 & s2 & E2 & E3).
    apply retR_inv in E3 as [_ ->].
    apply bindRd_inv in E1 as (l & s0 & E0 & E1). apply liftR_inv in E1 as [_ ->].
    unfold readline in E0. cbn [r_lines] in E0. destruct ls as [|l0 ls]; injection E0 as <- <-.
    + rewrite (IH _ _ _ _ E2). now rewrite !skipn_nil.
    + rewrite (IH _ _ _ _ E2). reflexivity.
Qed.

(** Entries stored by the common section; [line] is the top line. *)
Record common_read (d : na num) (line : str) (ignore ffi nlh : Z) : Prop := {
  mr_top : exists l, readItemsFromLine line 2 TInt = Ok l /\ l = [PInt nlh; PInt ffi];
  mr_ffi : d kFFI = Some (PInt ffi);
  mr_niv : d kNIV = Some (PInt (Z.quot ffi 1000));
  mr_nlh : d kNLHEAD = Some (PInt (nlh + ignore));
  mr_strs : forall k, In k [kONAME; kORG; kSNAME; kMNAME] -> exists s, d k = Some (PStr s);
  mr_ivol : exists a b, d kIVOL = Some (PInt a) /\ d kNVOL = Some (PInt b);
  mr_date : exists a b c, d kDATE = Some (PList [PInt a; PInt b; PInt c]);
  mr_rdate : exists a b c, d kRDATE = Some (PList [PInt a; PInt b; PInt c]);
  mr_ign : exists l, d kIGN = Some (PList l) /\ Forall (of_type TStr) l /\ length l = Z.to_nat ignore }.
Definition common_keys : list key :=
  [kIGN; kFFI; kNIV; kNLHEAD; kONAME; kORG; kSNAME; kMNAME; kIVOL; kNVOL; kDATE; kRDATE].

Lemma items_line_inv n t st l st' : items_line n t st = Ok (l, st') ->
  readItemsFromLine (match r_lines st with [] => [] | x :: _ => x end) n t = Ok l /\ r_na st' = r_na st.
Proof.
  intros E. apply bindRd_inv in E as (x & s1 & E1 & E2). apply liftR_inv in E2 as [E2 ->].
  unfold readline in E1. destruct (r_lines st); injection E1 as <- <-; auto.
Qed.

Lemma top_section st u st' : readTopLine st = Ok (u, st') ->
  exists nlh ffi, readItemsFromLine (match r_lines st with [] => [] | x :: _ => x end) 2 TInt = Ok [PInt nlh; PInt ffi] /\
    r_na st' = upd (upd (upd (r_na st) kNLHEAD (PInt nlh)) kFFI (PInt ffi)) kNIV (PInt (Z.quot ffi 1000)).
Proof.
  intros E. unfold readTopLine in E. apply bindRd_inv in E as (top & s3 & E3 & E2).
  pose proof (q_items_line _ _ _ _ _ E3) as [F3 [K3 K4]]. apply items_line_inv in E3 as [E3 _].
  specialize (K4 ltac:(discriminate)). destruct top as [|t1 [|t2 [|]]]; cbn [length] in K4; try lia.
  inversion K3 as [|? ? H1 K5]; subst. destruct H1 as [nlh ->]. inversion K5 as [|? ? H1 _]; subst. destruct H1 as [ffi ->].
  exists nlh, ffi. split; [exact E3|]. cbn in E2. injection E2 as <- <-. cbn [r_na]. now rewrite F3.
Qed.

Lemma common_section ignore ls d u st' : readCommonHeader ignore (mkR ls d) = Ok (u, st') ->
  (exists ffi nlh, common_read (r_na st') (nth (Z.to_nat ignore) ls []) ignore ffi nlh) /\
  same_except common_keys d (r_na st').
Proof.
  intros E. unfold readCommonHeader in E.
  apply bindRd_inv in E as (u0 & s0 & E0 & E). apply bindRd_inv in E0 as (vs & s1 & E1 & E0).
  pose proof (read_ignored_lines _ _ _ _ _ E1) as Hl. apply q_read_ignored in E1 as [F1 [K1 K2]]. cbn [r_na] in F1.
  assert (Hs0 : r_lines s0 = skipn (Z.to_nat ignore) ls).
  { unfold NARead.set in E0. injection E0 as <- <-. exact Hl. }
  apply set_inv in E0. rewrite F1 in E0.
  apply bindRd_inv in E as (u1 & s2 & E2 & E). apply top_section in E2 as (nlh & ffi & E2 & E3). rewrite E0 in E3. clear E0.
  match type of E2 with readItemsFromLine ?x _ _ = _ =>
    assert (Htop : x = nth (Z.to_nat ignore) ls []) end.
  { rewrite Hs0. clear. generalize (Z.to_nat ignore). intros n. revert ls. induction n; intros [|l ls]; cbn; auto. }
  rewrite Htop in E2. clear Htop.
  run E. attrs. subst.
  split; [|same]. injection E18 as <-.
  destruct E11 as [T1 L1]. specialize (L1 ltac:(discriminate)). destruct a8 as [|x1 [|x2 [|]]]; cbn [length] in L1; try lia.
  injection E12 as <-. injection E13 as <-.
  destruct E16 as [T2 L2]. specialize (L2 ltac:(discriminate)).
  destruct a13 as [|y1 [|y2 [|y3 [|y4 [|y5 [|y6 [|]]]]]]]; cbn [length] in L2; try lia.
  repeat match goal with T : Forall _ (_ :: _) |- _ => inversion T; clear T; subst end.
  repeat match goal with T : of_type _ _ |- _ => destruct T as [? ->] end.
  exists ffi, nlh. split; try reflexivity.
  - eauto.
  - intros k [<- | [<- | [<- | [<- | []]]]]; eexists; reflexivity.
  - do 2 eexists; split; reflexivity.
  - do 3 eexists; reflexivity.
  - do 3 eexists; reflexivity.
  - exists vs. auto.
Qed.

Lemma vars_frame ks d d' nv vs vm vn : vars_read d nv vs vm vn -> same_except ks d d' ->
  (forall k, In k [kNV; kVSCAL; kVMISS; kVNAME] -> ~ In k ks) -> vars_read d' nv vs vm vn.
Proof.
  intros V S D. destruct V. split; auto; rewrite S; auto; apply D; cbn; tauto.
Qed.
Lemma aux_frame ks d d' n : aux_read d n -> same_except ks d d' ->
  (forall k, In k [kNAUXV; kASCAL; kAMISS; kANAME] -> ~ In k ks) -> aux_read d' n.
Proof.
  intros V S D. destruct V as [V1 V2]. split; [rewrite S; auto; apply D; cbn; tauto|].
  intros Hp. destruct (V2 Hp) as (vs & vm & vn & W). exists vs, vm, vn.
  rewrite !S; auto; apply D; cbn; tauto.
Qed.
Lemma caux_frame ks d d' n nc : caux_read d n nc -> same_except ks d d' ->
  (forall k, In k [kNAUXV; kNAUXC; kLENA; kASCAL; kAMISS; kANAME] -> ~ In k ks) -> caux_read d' n nc.
Proof.
  intros V S D. destruct V as [V1 V2 V3]. split; try (rewrite S; auto; apply D; cbn; tauto).
  intros Hp. destruct (V3 Hp) as (vs & vm & vc & vn & W). exists vs, vm, vc, vn.
  rewrite !S; auto; apply D; cbn; tauto.
Qed.
Lemma common_frame ks d d' line i f n : common_read d line i f n -> same_except ks d d' ->
  (forall k, In k common_keys -> ~ In k ks) -> common_read d' line i f n.
Proof.
  intros V S D. destruct V. split; auto; try (rewrite !S; auto; apply D; cbn; tauto).
  intros k Hk. rewrite S; auto. apply D. cbn in Hk |- *. tauto.
Qed.

(** What a header reader leaves behind, whatever the file contains. *)
Definition comments_read (d : na num) : Prop :=
  exists n m sc nc, d kNSCOML = Some (PInt n) /\ d kSCOM = Some (PList (map PStr sc)) /\ length sc = Z.to_nat n /\
     d kNNCOML = Some (PInt m) /\ d kNCOM = Some (PList (map PStr nc)) /\ length nc = Z.to_nat m.
Record header_read (c : cls) (d : na num) (line : str) (ignore : Z) : Prop := {
  hr_common : exists ffi nlh, common_read d line ignore ffi nlh;
  hr_xname : exists niv xn, d kNIV = Some (PInt niv) /\ d kXNAME = Some (PList xn) /\ length xn = Z.to_nat niv /\ Forall (of_type TStr) xn;
  hr_vars : exists nv vs vm vn, vars_read d nv vs vm vn;
  hr_aux : match c with
    | C1001 => d kNAUXV = None /\ d kNAUXC = None
    | C2160 => exists n nc, caux_read d n nc
    | _ => (exists n, aux_read d n) /\ d kNAUXC = None
    end;
  hr_com : comments_read d;
  hr_dx : exists l, d kDX = Some (PList l);
  hr_data : d kV = None /\ d kA = None;
  hr_nvpm : match c with C1020 => exists v, d kNVPM = Some v | _ => d kNVPM = None end }.

Definition mid_keys : list key := [kDX; kNVPM; kNX; kNXDEF; kX; kLENX; kXNAME].

Definition key_in (k : key) (ks : list key) : bool := existsb (key_beq k) ks.
Lemma key_in_true k ks : key_in k ks = true <-> In k ks.
Proof.
  unfold key_in. rewrite existsb_exists. split; [intros (x & Hx & E); apply key_beq_true in E; now subst|].
  intros Hi. exists k. split; [auto|apply key_beq_refl].
Qed.
Lemma nin_ok k ks : key_in k ks = false -> ~ In k ks.
Proof. intros E Hi. apply key_in_true in Hi. congruence. Qed.
Lemma disj_ok ks ks' : forallb (fun k => negb (key_in k ks')) ks = true -> forall k, In k ks -> ~ In k ks'.
Proof. rewrite forallb_forall. intros Hf k Hi. apply nin_ok. specialize (Hf k Hi). now destruct (key_in k ks'). Qed.
Lemma incl_ok ks ks' : forallb (fun k => key_in k ks') ks = true -> forall k, In k ks -> In k ks'.
Proof. rewrite forallb_forall. intros Hf k Hi. apply key_in_true. auto. Qed.
Ltac nin := apply nin_ok; vm_compute; reflexivity.
Ltac chase := repeat match goal with
  | S : same_except _ _ ?d |- ?d ?k = _ => rewrite (S k) by nin
  | |- upd _ _ _ _ = _ => (rewrite upd_other by discriminate) || rewrite upd_same
  end.
Ltac sections :=
  match goal with E : readCommonHeader _ _ = _ |- _ => apply common_section in E as [(ffi & nlh & K1) S1] end;
  match goal with E : readVariablesHeaderSection _ = _ |- _ => apply vars_section in E as [(nv & vs & vm & vn & K2) S2] end;
  try match goal with E : readAuxVariablesHeaderSection _ = _ |- _ => apply aux_section in E as [(nx & Kx) Sx] end;
  try match goal with E : readCharAuxVariablesHeaderSection _ = _ |- _ => apply caux_section in E as [(nx & nc & Kx) Sx] end;
  match goal with E : readComments _ = _ |- _ => apply comments_section in E as [K3 S3] end;
  cbn [NARead.r_na] in *; fields.
Ltac disj := apply disj_ok; vm_compute; reflexivity.
Ltac incl_keys := apply incl_ok; vm_compute; reflexivity.
Ltac back lem := repeat match goal with
  | S : same_except _ ?e ?d |- _ ?d _ => eapply lem; [|exact S|disj]
  | S : same_except _ ?e ?d |- _ ?d _ _ => eapply lem; [|exact S|disj]
  | S : same_except _ ?e ?d |- _ ?d _ _ _ _ => eapply lem; [|exact S|disj]
  end; eassumption.

Definition after_common : list key := mid_keys ++ [kNV; kVSCAL; kVMISS; kVNAME] ++ [kNAUXV; kNAUXC; kASCAL; kAMISS; kANAME; kLENA] ++
  [kNSCOML; kSCOM; kNNCOML; kNCOM].
Ltac outer ks d0 d :=
  match d with
  | _ => constr_eq d d0; apply same_refl
  | _ => match goal with S : same_except _ ?e d |- _ =>
      eapply same_trans; [|eapply same_mono; [|exact S]; incl_keys]; outer ks d0 e end
  | upd ?e _ _ => apply same_upd; [outer ks d0 e|cbn; tauto]
  end.
Ltac header :=
  match goal with K1 : common_read ?d0 _ _ _ _ |- header_read _ ?d _ _ =>
    let So := fresh "So" in let K1' := fresh "Kc" in
    assert (So : same_except after_common d0 d) by (outer after_common d0 d);
    pose proof (common_frame _ _ _ _ _ _ _ K1 So ltac:(disj)) as K1';
    match goal with E : attr _ kNIV = PInt ?n, K : common_read d0 _ _ ?f _ |- _ =>
      assert (n = Z.quot f 1000) by (unfold attr in E; rewrite (mr_niv _ _ _ _ _ K) in E; congruence); subst n end;
    clear So; split; [eauto
    | do 2 eexists; split; [exact (mr_niv _ _ _ _ _ K1')|]; split; [chase; reflexivity|]; rewrite ?rev_length; split; [assumption|];
      try apply Forall_rev; assumption
    | do 4 eexists; back vars_frame
    |
    | assumption
    | eexists; chase; reflexivity
    | split; chase; reflexivity
    | first [chase; reflexivity | eexists; chase; reflexivity] ]
  end.
Lemma header_section c ignore ls u st' : readHeader c ignore (mkR ls na_new) = Ok (u, st') ->
  header_read c (r_na st') (nth (Z.to_nat ignore) ls []) ignore.
Proof.
  intros E. destruct c; cbn [readHeader] in E.
  - unfold readHeader_1001 in E. run E. sections. header. split; chase; reflexivity.
  - unfold readHeader_1010 in E. run E. sections. header.
    split; [|chase; reflexivity]. eexists. back aux_frame.
  - unfold readHeader_1020 in E. run E. sections. header.
    split; [|chase; reflexivity]. eexists. back aux_frame.
  - unfold readHeader_2010 in E. run E. sections. header.
    split; [|chase; reflexivity]. eexists. back aux_frame.
  - unfold readHeader_2110 in E. run E. sections. header.
    split; [|chase; reflexivity]. eexists. back aux_frame.
  - unfold readHeader_2160 in E. run E. sections. header.
    do 2 eexists. back caux_frame.
  - unfold readHeader_2310 in E. run E. sections. header.
    split; [|chase; reflexivity]. eexists. back aux_frame.
  - unfold readHeader_2010 in E. run E. sections. header.
    split; [|chase; reflexivity]. eexists. back aux_frame.
  - unfold readHeader_2010 in E. run E. sections. header.
    split; [|chase; reflexivity]. eexists. back aux_frame.
Qed.

(** The axes of the files with bounded independent variables. *)
Lemma header_2010 ignore ls u (st' : rst num) : readHeader_2010 ignore (mkR ls na_new) = Ok (u, st') ->
  exists niv dx nx nxdef xs, r_na st' kNIV = Some (PInt niv) /\
    r_na st' kDX = Some (PList dx) /\ Forall (of_type TFloat) dx /\ (niv <> 0%Z -> Z.of_nat (length dx) = niv) /\
    r_na st' kNX = Some (PList nx) /\ Forall (of_type TInt) nx /\ ((niv - 1)%Z <> 0%Z -> Z.of_nat (length nx) = niv - 1)%Z /\
    r_na st' kNXDEF = Some (PList nxdef) /\ Forall (of_type TInt) nxdef /\
      ((niv - 1)%Z <> 0%Z -> Z.of_nat (length nxdef) = niv - 1)%Z /\
    r_na st' kX = Some (PList (PList [] :: xs)) /\ ((niv - 1)%Z <> 0%Z -> Z.of_nat (length xs) = niv - 1)%Z /\
    Forall (fun v => exists x, v = PList x /\ x <> [] /\ Forall (of_type TFloat) x) xs.
Proof.
  intros E. unfold readHeader_2010 in E. run E. sections. attrs.
  match goal with E : attr _ kNIV = PInt ?n, K : common_read _ _ _ ?f _ |- _ =>
      assert (n = Z.quot f 1000) by (unfold attr in E; rewrite (mr_niv _ _ _ _ _ K) in E; congruence); subst n end.
  do 5 eexists.
  split; [chase; match goal with K : common_read _ _ _ _ _ |- _ => exact (mr_niv _ _ _ _ _ K) end|].
  split; [chase; reflexivity|]. split; [apply Forall_rev; assumption|]. split; [rewrite rev_length; assumption|].
  split; [chase; reflexivity|]. split; [apply Forall_rev; assumption|]. split; [rewrite rev_length; assumption|].
  split; [chase; reflexivity|]. split; [apply Forall_rev; assumption|]. split; [rewrite rev_length; assumption|].
  split; [chase; reflexivity|].
  match goal with F : length ?l = length (firstn _ (rev ?m)), G : (_ -> Z.of_nat (length ?m) = _) |- _ =>
    split; [intros Q; specialize (G Q); rewrite rev_length, F, firstn_length, rev_length; lia|] end.
  apply Forall_rev. assumption.
Qed.

Lemma top_line_read c d content ignore : openNAFile_r content ignore = Ok (c, d) ->
  exists nlh ffi, readItemsFromLine (num:=num) (nth (Z.to_nat ignore) (readlines content) []) 2 TInt = Ok [PInt nlh; PInt ffi] /\
    header_read c d (nth (Z.to_nat ignore) (readlines content) []) ignore /\
    d kFFI = Some (PInt ffi) /\ getNAFileClass ffi = Ok c.
Proof.
  unfold openNAFile_r. intros E.
  destruct (readFFI content ignore) as [f|] eqn:Ef; cbn [bindR] in E; [|discriminate].
  destruct (getNAFileClass f) as [c'|] eqn:Ec; cbn [bindR] in E; [|discriminate].
  destruct (readHeader c' ignore (mkR (readlines content) na_new)) as [[u st]|] eqn:Er; cbn [bindR snd] in E; [|discriminate].
  injection E as -> <-. pose proof (header_section _ _ _ _ _ Er) as Hh.
  destruct (hr_common _ _ _ _ Hh) as (ffi & nlh & C). destruct (mr_top _ _ _ _ _ C) as (l & E1 & ->).
  exists nlh, ffi. split; [exact E1|]. split; [exact Hh|]. split; [exact (mr_ffi _ _ _ _ _ C)|].
  assert (f = ffi) as <-; [|exact Ec].
  unfold readFFI in Ef. cbv zeta in Ef. rewrite E1 in Ef. cbn in Ef. now injection Ef.
Qed.
End Sections.
