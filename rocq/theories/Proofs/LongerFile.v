(** Two runs of the writer side by side: a dictionary and one with further
    marks. *)
From Coq Require Import List NArith ZArith Bool Lia.
From Verif Require Import Py.Str Py.Res Py.Num Model.Dict Model.TextParser Model.CommonUtils
  Model.NAWrite Spec.WriteSpec Spec.CutSpec Proofs.WriteFrame Proofs.WriteSim.
Import ListNotations.

Section Longer.
Context {num : Type} `{NumOps num}.
Variable o : opts num.
Variable c : cls.
Local Notation pyv := (pyv num).
Local Notation W := (W num).

Definition first_axis (v w : pyv) : Prop := v = w \/ exists t t' b, v = PList (t :: b) /\ w = PList (t' :: b) /\ goes_on t t'.
(** How the attributes of the two runs are related. *)
Definition rk (k : key) : pyv -> pyv -> Prop :=
  match k with
  | kV => all_go_on
  | kA => match c with C1001 => eq | _ => all_go_on end
  | kX => match c with C2010 | C3010 | C4010 => first_axis | _ => goes_on end
  | kNX => match c with C2110 | C2160 | C2310 => goes_on | _ => eq end
  | kDX => match c with C2310 => goes_on | _ => eq end
  | _ => eq
  end.
Definition alike (s s' : wst num) : Prop :=
  w_file s = w_file s' /\ w_head s = w_head s' /\ forall k, rk k (attr (w_na s) k) (attr (w_na s') k).

Definition sim {A} (RA : A -> A -> Prop) (m m' : W A) : Prop := forall s s' a s1, alike s s' -> m s = (Ok a, s1) ->
  exists a' s1', m' s' = (Ok a', s1') /\ RA a a' /\ alike s1 s1'.

Lemma sim_bind {A B} (RA : A -> A -> Prop) (RB : B -> B -> Prop) m m' f f' :
  sim RA m m' -> (forall a a', RA a a' -> sim RB (f a) (f' a')) -> sim RB (bindW m f) (bindW m' f').
Proof.
  intros Hm Hf s s' b s1 Hs E. unfold bindW in *. destruct (m s) as [[a|e] s2] eqn:Em; [|discriminate].
  destruct (Hm _ _ _ _ Hs Em) as (a' & s2' & -> & Ha & Hs2). exact (Hf _ _ Ha _ _ _ _ Hs2 E).
Qed.
Lemma sim_bind_eq {A B} (RB : B -> B -> Prop) (m : W A) f f' :
  sim eq m m -> (forall a, sim RB (f a) (f' a)) -> sim RB (bindW m f) (bindW m f').
Proof. intros Hm Hf. eapply sim_bind; [exact Hm|]. intros a a' <-. apply Hf. Qed.
Lemma sim_bind_eq' {B} (RB : B -> B -> Prop) (m m' : W unit) f f' :
  sim eq m m' -> sim RB f f' -> sim RB (bindW m (fun _ => f)) (bindW m' (fun _ => f')).
Proof. intros Hm Hf. eapply sim_bind; [exact Hm|]. intros _ _ _. exact Hf. Qed.
Lemma sim_ret {A} (a : A) : sim eq (retW a) (retW a).
Proof. intros s s' b s1 Hs [= <- <-]. exists a, s'. auto. Qed.
Lemma sim_lift {A} (r : Res A) : sim eq (liftW r) (liftW r).
Proof. intros s s' b s1 Hs E. injection E as -> <-. exists b, s'. auto. Qed.
Lemma sim_lift_to {A} (RA : A -> A -> Prop) (r r' : Res A) : (forall a, r = Ok a -> exists a', r' = Ok a' /\ RA a a') -> sim RA (liftW r) (liftW r').
Proof. intros Hr s s' b s1 Hs E. injection E as E <-. destruct (Hr b E) as (a' & -> & Ha). exists a', s'. auto. Qed.
Lemma sim_lift_eq {A} (r r' : Res A) : (forall a, r = Ok a -> r' = Ok a) -> sim eq (liftW r) (liftW r').
Proof. intros Hr. apply sim_lift_to. intros a E. exists a. auto. Qed.
Lemma sim_self_to k : sim (rk k) (self k) (self k).
Proof. intros s s' b s1 Hs [= <- <-]. exists (attr (w_na s') k), s'. split; [reflexivity|]. split; [apply Hs|exact Hs]. Qed.
Lemma sim_self k : rk k = eq -> sim eq (self k) (self k).
Proof. intros E. pose proof (sim_self_to k) as K. rewrite E in K. exact K. Qed.
Lemma sim_fwrite t : sim eq (fwrite t) (fwrite t).
Proof. intros s s' b s1 (H1 & H2 & H3) [= <- <-]. exists tt. eexists. split; [reflexivity|]. split; [reflexivity|]. repeat split; cbn; auto. now rewrite H1. Qed.
Lemma sim_hwrite t : sim eq (hwrite t) (hwrite t).
Proof. intros s s' b s1 (H1 & H2 & H3) [= <- <-]. exists tt. eexists. split; [reflexivity|]. split; [reflexivity|]. repeat split; cbn; auto. now rewrite H2. Qed.
Lemma sim_flush : sim eq flushHeader flushHeader.
Proof. intros s s' b s1 (H1 & H2 & H3) [= <- <-]. exists tt. eexists. split; [reflexivity|]. split; [reflexivity|]. repeat split; cbn; auto. now rewrite H1, H2. Qed.
Lemma sim_fix : sim eq (fixHeaderLength o) (fixHeaderLength o).
Proof.
  intros s s' b s1 (H1 & H2 & H3) E. unfold fixHeaderLength in *. pose proof (H3 kFFI : attr (w_na s) kFFI = attr (w_na s') kFFI) as Ef. rewrite <- H2, <- Ef.
  destruct (fmt_d _); [|discriminate]. destruct (annotateLine _ _ _ _); [|discriminate]. destruct (lines (w_head s)); [discriminate|].
  injection E as <- <-. exists tt. eexists. split; [reflexivity|]. split; [reflexivity|]. repeat split; cbn; auto.
Qed.
Lemma sim_reverse k : rk k = eq -> sim eq (reverse_in_place k) (reverse_in_place k).
Proof.
  intros Ek. apply sim_bind_eq; [now apply sim_self|]. intros v. apply sim_bind_eq; [apply sim_lift|]. intros v'.
  intros s s' b s1 (H1 & H2 & H3) [= <- <-]. exists tt. eexists. split; [reflexivity|]. split; [reflexivity|]. repeat split; cbn; auto.
  intros k'. unfold attr, upd. destruct (key_beq k k') eqn:E; [|exact (H3 k')]. apply key_beq_true in E as <-. now rewrite Ek.
Qed.
Lemma sim_forW {A} (l : list A) f f' : (forall a, In a l -> sim eq (f a) (f' a)) -> sim eq (forW l f) (forW l f').
Proof.
  induction l as [|x l IH]; cbn [forW]; intros Hf; [apply sim_ret|]. eapply sim_bind; [apply Hf; now left|]. intros _ _ _. apply IH. intros a Ha. apply Hf. now right.
Qed.

Ltac sim_tac := repeat first
  [ apply sim_ret | apply sim_lift | (apply sim_self; solve [reflexivity]) | apply sim_fwrite | apply sim_hwrite | apply sim_fix | apply sim_flush
  | (apply sim_reverse; solve [reflexivity]) | (apply sim_forW; intros) | (apply sim_bind_eq; [|intros])
  | match goal with
    | |- sim _ (if ?b then _ else _) _ => destruct b
    | |- sim _ (match ?l with [] => _ | _ => _ end) _ => destruct l
    end ].
Ltac unf := unfold hwrap, hwraps, wrapLine, wrapLines, self_int, self_list.

Lemma sim_common : sim eq (writeCommonHeader o) (writeCommonHeader o).
Proof. unfold writeCommonHeader; unf; sim_tac. Qed.
Lemma sim_vars : sim eq (writeVariablesHeaderSection o) (writeVariablesHeaderSection o).
Proof. unfold writeVariablesHeaderSection; unf; sim_tac. Qed.
Lemma sim_aux : sim eq (writeAuxVariablesHeaderSection o) (writeAuxVariablesHeaderSection o).
Proof. unfold writeAuxVariablesHeaderSection; unf; sim_tac. Qed.
Lemma sim_aux2160 : sim eq (writeAuxVariablesHeaderSection_2160 o) (writeAuxVariablesHeaderSection_2160 o).
Proof. unfold writeAuxVariablesHeaderSection_2160; unf; sim_tac. Qed.
Lemma sim_comments : sim eq (writeComments o) (writeComments o).
Proof. unfold writeComments; unf; sim_tac. Qed.

(** ** Items *)
Lemma nth_res_app {A} (p q : list A) i x : nth_res p i = Ok x -> nth_res (p ++ q) i = Ok x.
Proof.
  unfold nth_res. destruct (nth_error p i) as [y|] eqn:E; [|discriminate]. intros [= ->].
  assert (i < length p)%nat by (apply nth_error_Some; congruence). now rewrite nth_error_app1, E.
Qed.

Lemma index_on (v w : pyv) i x : goes_on v w -> index v i = Ok x -> index w i = Ok x.
Proof. intros [<- | (p & q & -> & ->)]; [auto|]. cbn. apply nth_res_app. Qed.
Lemma index_all (V V' : pyv) i x : all_go_on V V' -> index V i = Ok x -> exists x', index V' i = Ok x' /\ goes_on x x'.
Proof.
  intros (p & q & -> & -> & HF). cbn. revert i. induction HF as [|v w p q Hv HF IH]; intros [|i]; cbn; try discriminate; [|apply IH].
  intros [= <-]. eauto.
Qed.
Lemma index2_all (V V' : pyv) n m x : all_go_on V V' -> index2 V n m = Ok x -> index2 V' n m = Ok x.
Proof.
  intros HV. unfold index2. destruct (index V n) as [v|] eqn:E; cbn [bindR]; [|discriminate].
  destruct (index_all _ _ _ _ HV E) as (v' & -> & Hg). cbn [bindR]. now apply index_on.
Qed.
Lemma index3_all (V V' : pyv) n m p x : all_go_on V V' -> index3 V n m p = Ok x -> index3 V' n m p = Ok x.
Proof.
  intros HV. unfold index3. destruct (index2 V n m) as [v|] eqn:E; cbn [bindR]; [|discriminate]. now rewrite (index2_all _ _ _ _ _ HV E).
Qed.
Lemma index2_on (X X' : pyv) m j x : goes_on X X' -> index2 X m j = Ok x -> index2 X' m j = Ok x.
Proof. intros HX. unfold index2. destruct (index X m) as [v|] eqn:E; cbn [bindR]; [|discriminate]. now rewrite (index_on _ _ _ _ HX E). Qed.
Lemma index3_on (X X' : pyv) m j p x : goes_on X X' -> index3 X m j p = Ok x -> index3 X' m j p = Ok x.
Proof. intros HX. unfold index3. destruct (index2 X m j) as [v|] eqn:E; cbn [bindR]; [|discriminate]. now rewrite (index2_on _ _ _ _ _ HX E). Qed.
Lemma cat_items_to {A} (l : list A) (f f' : A -> Res pyv) s : (forall i x, f i = Ok x -> f' i = Ok x) -> cat_items o l f = Ok s -> cat_items o l f' = Ok s.
Proof.
  intros Hf. unfold cat_items. intros E. destruct (mapR _ l) as [ss|] eqn:Em in E; cbn [bindR] in E; [|discriminate].
  assert (M : mapR (fun i => bindR (f' i) (fmt_item o)) l = Ok ss).
  { clear E. revert ss Em. induction l as [|i l IH]; intros ss Em; cbn [mapR] in *; [exact Em|].
    destruct (f i) as [x|] eqn:Ex; cbn [bindR] in Em; [|discriminate]. rewrite (Hf _ _ Ex). cbn [bindR].
    destruct (fmt_item o x); cbn [bindR] in *; [|discriminate]. destruct (mapR _ l) as [t|]; cbn [bindR] in *; [|discriminate]. now rewrite (IH t eq_refl). }
  rewrite M. exact E.
Qed.
Lemma range_len_on (X X' : pyv) ms : goes_on X X' -> range_len X = Ok ms -> exists more, range_len X' = Ok (ms ++ more).
Proof.
  intros [<- | (p & q & -> & ->)]; [intros ->; exists []; now rewrite app_nil_r|]. cbn. intros [= <-].
  rewrite app_length, seq_app. cbn. eauto.
Qed.

(** ** Header *)
Lemma x_line_first nxdef (X X' : pyv) i : first_axis X X' -> x_line o nxdef X i = x_line o nxdef X' i.
Proof.
  intros [<- | (t & t' & b & -> & -> & _)]; [reflexivity|]. unfold x_line.
  replace (index (PList (t' :: b)) (i + 1)) with (index (PList (t :: b)) (i + 1)); [reflexivity|].
  rewrite Nat.add_1_r. reflexivity.
Qed.
End Longer.

Ltac sim_tac := repeat first
  [ apply sim_ret | apply sim_lift | apply sim_common | apply sim_vars | apply sim_aux | apply sim_aux2160 | apply sim_comments
  | (apply sim_self; solve [reflexivity]) | apply sim_fwrite | apply sim_hwrite | apply sim_fix | apply sim_flush
  | (apply sim_reverse; solve [reflexivity]) | (apply sim_forW; intros) | (apply sim_bind_eq; [|intros])
  | match goal with
    | |- sim _ _ (if ?b then _ else _) _ => destruct b
    | |- sim _ _ (match ?l with [] => _ | _ => _ end) _ => destruct l
    end ].
Ltac unf := unfold hwrap, hwraps, wrapLine, wrapLines, self_int, self_list.

Section Writer.
Context {num : Type} `{NumOps num}.
Variable o : opts num.
Local Notation pyv := (pyv num).
Local Notation W := (W num).

Lemma sim_header_2010 c : In c [C2010; C3010; C4010] -> sim c eq (writeHeader_2010 o) (writeHeader_2010 o).
Proof.
  intros Hc. unfold writeHeader_2010.
  apply sim_bind_eq; [apply sim_common|]. intros _.
  apply sim_bind_eq; [apply sim_reverse; destruct Hc as [<-|[<-|[<-|[]]]]; reflexivity|]. intros _.
  apply sim_bind_eq; [destruct Hc as [<-|[<-|[<-|[]]]]; unf; sim_tac|]. intros _.
  apply sim_bind_eq; [apply sim_reverse; destruct Hc as [<-|[<-|[<-|[]]]]; reflexivity|]. intros _.
  apply sim_bind_eq; [destruct Hc as [<-|[<-|[<-|[]]]]; unf; sim_tac|]. intros _.
  apply sim_bind_eq; [unf; sim_tac|]. intros _.
  apply sim_bind_eq.
  { unf. apply sim_bind_eq; [sim_tac|]. intros niv. apply sim_bind_eq; [sim_tac|]. intros nxdef.
    assert (KX : sim (num:=num) c first_axis (self kX) (self kX)) by (destruct Hc as [<-|[<-|[<-|[]]]]; exact (sim_self_to _ kX)).
    eapply sim_bind; [exact KX|]. intros X X' HX. apply (sim_bind c eq).
    - apply sim_lift_eq. intros a E. rewrite <- E. clear E a. induction (range (niv - 1)) as [|i l IH]; [reflexivity|]. cbn [mapR]. now rewrite IH, (x_line_first _ _ _ _ i HX).
    - intros xl _ <-. sim_tac. }
  intros _. apply sim_bind_eq; [unf; sim_tac|]. intros _. sim_tac.
Qed.
Lemma sim_header c : sim c eq (writeHeader o c) (writeHeader o c).
Proof.
  destruct c; cbn [writeHeader]; try (apply sim_header_2010; cbn; tauto).
  - unfold writeHeader_1001; unf; sim_tac.
  - unfold writeHeader_1010; unf; sim_tac.
  - unfold writeHeader_1020; unf; sim_tac.
  - unfold writeHeader_2110; unf; sim_tac.
  - unfold writeHeader_2160; unf. apply sim_bind_eq; [|intros _; sim_tac]. apply sim_bind_eq; [sim_tac|]. intros [| | | |[|v l]]; sim_tac.
  - unfold writeHeader_2310. apply sim_bind_eq; [apply sim_common|]. intros _. apply sim_bind_eq.
    + eapply sim_bind; [exact (sim_self_to (num:=num) C2310 kDX)|]. cbn [rk]. intros v v' Hv. apply (sim_bind C2310 eq).
      * apply sim_lift_eq. intros a. now apply index_on.
      * intros a _ <-. unf; sim_tac.
    + intros _. unf; sim_tac.
Qed.

(** ** Data: the marks of the shorter dictionary come first *)
Lemma sim_x_aux c x x' m : rk (num:=num) c kA = all_go_on -> (forall v, x = Ok v -> x' = Ok v) -> sim c eq (write_x_aux o x m) (write_x_aux o x' m).
Proof.
  intros EA Hx. unfold write_x_aux. apply (sim_bind c eq).
  - apply sim_lift_eq. intros a. apply cat_items_to. intros _. exact Hx.
  - intros xs _ <-. apply sim_bind_eq; [unf; sim_tac|]. intros na.
    pose proof (sim_self_to (num:=num) c kA) as KA. rewrite EA in KA. eapply sim_bind; [exact KA|]. intros A A' HA.
    apply (sim_bind c eq); [|intros avs _ <-; unfold write_data_line; unf; sim_tac].
    apply sim_lift_eq. intros s. apply cat_items_to. intros i x0. now apply index2_all.
Qed.
Lemma sim_cols c (l : list nat) (f : pyv -> nat -> Res pyv) (k : str -> W unit) :
  (forall V V' n x, all_go_on V V' -> f V n = Ok x -> f V' n = Ok x) -> (forall s, sim c eq (k s) (k s)) ->
  sim c eq (bindW (self kV) (fun V => bindW (liftW (cat_items o l (f V))) k)) (bindW (self kV) (fun V => bindW (liftW (cat_items o l (f V))) k)).
Proof.
  intros Hf Hk. eapply sim_bind; [exact (sim_self_to (num:=num) c kV)|]. cbn [rk]. intros V V' HV. apply (sim_bind c eq); [|intros s _ <-; apply Hk].
  apply sim_lift_eq. intros s. apply cat_items_to. intros n x. now apply Hf.
Qed.
Lemma sim_inner c X X' m : rk (num:=num) c kNX = goes_on -> goes_on X X' -> sim c eq (write_inner_2110 o X m) (write_inner_2110 o X' m).
Proof.
  intros EN HX. unfold write_inner_2110. pose proof (sim_self_to (num:=num) c kNX) as KN. rewrite EN in KN. eapply sim_bind; [exact KN|]. intros nx nx' Hn.
  apply (sim_bind c eq).
  - apply sim_lift_eq. intros a. destruct (index nx m) as [v|] eqn:E; cbn [bindR]; [|discriminate]. now rewrite (index_on _ _ _ _ Hn E).
  - intros nxm _ <-. apply sim_forW. intros p _. apply (sim_bind c eq).
    + apply sim_lift_eq. intros a. apply cat_items_to. intros i x. now apply index3_on.
    + intros xs _ <-. apply sim_bind_eq; [unf; sim_tac|]. intros nv. apply (sim_cols c _ (fun V n => index3 V n m p)).
      * intros V V' n x. apply index3_all.
      * intros s. unfold write_data_line; unf; sim_tac.
Qed.

(** A loop over more marks: [m'] goes on where [m] ends. *)
Definition goes_further c (m m' : W unit) : Prop := forall s s' s1, alike c s s' -> m s = (Ok tt, s1) ->
  forall r s1', m' s' = (r, s1') -> exists more, w_file s1' = w_file s1 ++ more.
Lemma further_bind {A} c (RA : A -> A -> Prop) (m m' : W A) f f' :
  sim c RA m m' -> (forall a a', RA a a' -> goes_further c (f a) (f' a')) -> goes_further c (bindW m f) (bindW m' f').
Proof.
  intros Hm Hf s s' s1 Hs E r s1' E'. unfold bindW in *. destruct (m s) as [[a|e] s2] eqn:Em; [|discriminate].
  destruct (Hm _ _ _ _ Hs Em) as (a' & s2' & Em' & Ha & Hs2). rewrite Em' in E'. exact (Hf _ _ Ha _ _ _ Hs2 E _ _ E').
Qed.
Lemma further_for {A} c (l more : list A) f f' : (forall a, In a l -> sim c eq (f a) (f' a)) -> (forall a, dstep (f' a)) -> goes_further c (forW l f) (forW (l ++ more) f').
Proof.
  intros Hf Hd. induction l as [|x l IH]; cbn [forW app].
  - intros s s' s1 Hs [= <-] r s1' E'. destruct (dstep_forW more f' Hd _ _ _ E') as [[t Ht] _]. exists t. rewrite Ht. f_equal. symmetry. apply Hs.
  - eapply further_bind; [apply Hf; now left|]. intros _ _ _. apply IH. intros a Ha. apply Hf. now right.
Qed.
Lemma further_marks c (X X' : pyv) f f' : goes_on X X' -> (forall m, sim c eq (f m) (f' m)) -> (forall m, dstep (f' m)) ->
  goes_further c (bindW (liftW (range_len X)) (fun ms => forW ms f)) (bindW (liftW (range_len X')) (fun ms => forW ms f')).
Proof.
  intros HX Hf Hd. apply (further_bind c (fun a a' => exists more, a' = a ++ more)).
  - apply sim_lift_to. intros a E. destruct (range_len_on _ _ _ HX E) as [more ->]. eauto.
  - intros a a' [more ->]. now apply further_for.
Qed.

Ltac dstep_tac := repeat first
  [ apply dstep_ret | apply dstep_lift | apply dstep_self | apply dstep_fwrite | apply dstep_reverse
  | (apply dstep_forW; intros) | (apply dstep_bind; [|intros])
  | match goal with
    | |- dstep (if ?b then _ else _) => destruct b
    | |- dstep (match ?l with [] => _ | _ => _ end) => destruct l
    end ].
Ltac ds := unfold write_x_aux, write_inner_2110, write_data_line, wrapLine, self_int, self_list; dstep_tac.
Ltac row := unfold write_data_line; unf; sim_tac.

Lemma further_data_2010 c : In c [C2010; C3010; C4010] -> goes_further c (writeData_2010 o) (writeData_2010 o).
Proof.
  intros Hc. unfold writeData_2010.
  apply (further_bind c eq); [apply sim_reverse; destruct Hc as [<-|[<-|[<-|[]]]]; reflexivity|]. intros _ _ _.
  apply (further_bind c first_axis); [destruct Hc as [<-|[<-|[<-|[]]]]; exact (sim_self_to (num:=num) _ kX)|]. intros X X' HX.
  apply (further_bind c goes_on).
  { apply sim_lift_to. intros x E. destruct HX as [<- | (t & t' & b & -> & -> & Hg)]; [exists x; split; [exact E|now left]|].
    cbn in E. injection E as <-. exists t'. split; [reflexivity|exact Hg]. }
  intros x x' Hx. apply further_marks; [exact Hx| |intros m; ds]. intros m.
  apply sim_bind_eq'; [apply sim_x_aux; [destruct Hc as [<-|[<-|[<-|[]]]]; reflexivity|intros v; now apply index_on]|].
  apply sim_bind_eq; [unf; sim_tac|]. intros nv. apply sim_forW. intros n _.
  eapply sim_bind; [exact (sim_self_to (num:=num) c kV)|]. cbn [rk]. intros V V' HV. apply (sim_bind c eq).
  - apply sim_lift_eq. intros v. now apply index2_all.
  - intros v _ <-. apply sim_bind_eq; [|intros; row]. destruct Hc as [<-|[<-|[<-|[]]]]; unf; sim_tac.
Qed.
Lemma further_data c : goes_further c (writeData o c) (writeData o c).
Proof.
  destruct c; cbn [writeData]; try (apply further_data_2010; cbn; tauto).
  - apply (further_bind C1001 goes_on); [exact (sim_self_to (num:=num) C1001 kX)|]. intros X X' HX. apply further_marks; [exact HX| |intros m; ds]. intros m.
    apply (sim_bind C1001 eq); [apply sim_lift_eq; intros a; apply cat_items_to; intros i x; now apply index_on|]. intros xs _ <-.
    apply sim_bind_eq; [row|]. intros nv. apply (sim_cols C1001 _ (fun V n => index2 V n m)); [intros V V' n x; apply index2_all|intros s; row].
  - apply (further_bind C1010 goes_on); [exact (sim_self_to (num:=num) C1010 kX)|]. intros X X' HX. apply further_marks; [exact HX| |intros m; ds]. intros m.
    apply sim_bind_eq'; [apply sim_x_aux; [reflexivity|intros v; now apply index_on]|].
    apply sim_bind_eq; [row|]. intros nv. apply (sim_cols C1010 _ (fun V n => index2 V n m)); [intros V V' n x; apply index2_all|intros s; row].
  - apply (further_bind C1020 goes_on); [exact (sim_self_to (num:=num) C1020 kX)|]. intros X X' HX. apply further_marks; [exact HX| |intros m; ds]. intros m.
    apply sim_bind_eq'; [apply sim_x_aux; [reflexivity|intros v; now apply index_on]|].
    apply sim_bind_eq; [row|]. intros nv. apply sim_forW. intros n _. apply sim_bind_eq; [row|]. intros nvpm.
    apply (sim_cols C1020 _ (fun V p => index2 V n (m * Z.to_nat nvpm + p))); [intros V V' p x; apply index2_all|intros s; row].
  - apply (further_bind C2110 goes_on); [exact (sim_self_to (num:=num) C2110 kX)|]. intros X X' HX. apply further_marks; [exact HX| |intros m; ds]. intros m.
    apply sim_bind_eq'; [apply sim_x_aux; [reflexivity|intros v; now apply index2_on]|]. apply sim_inner; [reflexivity|exact HX].
  - apply (further_bind C2160 goes_on); [exact (sim_self_to (num:=num) C2160 kX)|]. intros X X' HX. apply further_marks; [exact HX| |intros m; ds]. intros m.
    apply (sim_bind C2160 eq).
    { apply sim_lift_eq. intros a. destruct (index2 X m 0) as [v|] eqn:E; cbn [bindR]; [|discriminate]. now rewrite (index2_on _ _ _ _ _ HX E). }
    intros xs _ <-. apply sim_bind_eq; [row|]. intros _. apply sim_bind_eq; [row|]. intros na. apply sim_bind_eq; [row|]. intros nc.
    eapply sim_bind; [exact (sim_self_to (num:=num) C2160 kA)|]. cbn [rk]. intros A A' HA. apply (sim_bind C2160 eq).
    { apply sim_lift_eq. intros s. apply cat_items_to. intros i x. now apply index2_all. }
    intros avs _ <-. apply sim_bind_eq; [row|]. intros _. apply sim_bind_eq'; [|apply sim_inner; [reflexivity|exact HX]].
    apply sim_forW. intros a _. apply (sim_bind C2160 eq); [|intros s _ <-; row].
    apply sim_lift_eq. intros s. destruct (index2 A _ m) as [v|] eqn:E; cbn [bindR]; [|discriminate]. now rewrite (index2_all _ _ _ _ _ HA E).
  - apply (further_bind C2310 goes_on); [exact (sim_self_to (num:=num) C2310 kX)|]. intros X X' HX. apply further_marks; [exact HX| |intros m; ds]. intros m.
    apply sim_bind_eq'; [apply sim_x_aux; [reflexivity|intros v; now apply index2_on]|].
    eapply sim_bind; [exact (sim_self_to (num:=num) C2310 kNX)|]. cbn [rk]. intros nx nx' Hn. apply (sim_bind C2310 eq).
    { apply sim_lift_eq. intros a. destruct (index nx m) as [v|] eqn:E; cbn [bindR]; [|discriminate]. now rewrite (index_on _ _ _ _ Hn E). }
    intros nxm _ <-. apply sim_bind_eq; [destruct (range nxm); unf; sim_tac|]. intros nv.
    eapply sim_bind; [exact (sim_self_to (num:=num) C2310 kV)|]. cbn [rk]. intros V V' HV. apply (sim_bind C2310 eq); [|intros s _ <-; row].
    apply sim_lift_eq. intros s. apply cat_items_to. intros i x. now apply index3_all.
Qed.

Lemma first_alike c f h (d d' : na num) : first_marks c d d' -> alike c (mkW f h d) (mkW f h d').
Proof.
  intros [HV Hr]. split; [reflexivity|]. split; [reflexivity|]. intros k. cbn [w_na].
  assert (K : forall ks, ~ In k ks -> (forall k, ~ In k ks -> d k = d' k) -> attr d k = attr d' k) by (intros ks Hk Hd; unfold attr; now rewrite (Hd k Hk)).
  destruct c; [destruct Hr as (RX & RK) | destruct Hr as (RX & RA & RK) | destruct Hr as (RX & RA & RK) | destruct Hr as (RA & RK & RX)
    | destruct Hr as (RX & RA & RN & RK) | destruct Hr as (RX & RA & RN & RK) | destruct Hr as (RX & RA & RN & RD & RK)
    | destruct Hr as (RA & RK & RX) | destruct Hr as (RA & RK & RX)];
    destruct k; cbn [rk]; try assumption; try (eapply K; [|exact RK]; cbn; intuition discriminate); exact RX.
Qed.
Lemma further_body c nh f h h' (d d' : na num) st r st' : first_marks c d d' ->
  write_body o c nh (mkW f h d) = (Ok tt, st) -> write_body o c nh (mkW f h' d') = (r, st') -> exists more, w_file st' = w_file st ++ more.
Proof.
  intros Hf E E'. assert (G : goes_further c (bindW (if nh then retW tt else writeHeader o c) (fun _ => writeData o c)) (bindW (if nh then retW tt else writeHeader o c) (fun _ => writeData o c))).
  { apply (further_bind c eq); [destruct nh; [apply sim_ret|apply sim_header]|]. intros _ _ _. apply further_data. }
  unfold write_body in E, E'. unfold bindW at 1 in E. unfold bindW at 1 in E'. cbn [w_file w_na] in E, E'.
  exact (G _ _ _ (first_alike c f [] d d' Hf) E _ _ E').
Qed.
End Writer.
