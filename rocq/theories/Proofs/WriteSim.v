(** Data steps, effects on the dictionary, and determinism of the writer. *)
From Coq Require Import List NArith ZArith Bool Lia.
From Verif Require Import Py.Str Py.Res Py.Num Model.Dict Model.TextParser Model.CommonUtils
  Model.NAWrite Spec.WriteSpec Proofs.StrLemmas Proofs.NumLemmas Proofs.TextLemmas Proofs.WriteFrame.
Import ListNotations.

Lemma key_beq_true a b : key_beq a b = true <-> a = b.
Proof. split; [apply internal_key_dec_bl|apply internal_key_dec_lb]. Qed.
Lemma key_beq_refl a : key_beq a a = true.
Proof. now apply key_beq_true. Qed.

Section Sim.
Context {num : Type} `{NumOps num}.
Variable o : opts num.
Local Notation W := (W num).

(** ** Data steps: whatever the outcome, the file is only appended to. *)
Definition dstep {A} (m : W A) : Prop := forall s r s', m s = (r, s') ->
  (exists t, w_file s' = w_file s ++ t) /\ w_head s' = w_head s.

Lemma dstep_same {A} (m : W A) : (forall s, snd (m s) = s) -> dstep m.
Proof.
  intros Hm s r s' E. specialize (Hm s). rewrite E in Hm. simpl in Hm. subst s'.
  split; auto. exists []. now rewrite app_nil_r.
Qed.
Lemma dstep_bind {A B} (m : W A) (f : A -> W B) :
  dstep m -> (forall a, dstep (f a)) -> dstep (bindW m f).
Proof.
  intros Hm Hf s r s' E. unfold bindW in E. destruct (m s) as [r1 s1] eqn:Em.
  destruct (Hm _ _ _ Em) as ((t1 & E1) & H1). destruct r1 as [a|e].
  - destruct (Hf a _ _ _ E) as ((t2 & E2) & H2). split; [|congruence].
    exists (t1 ++ t2). now rewrite E2, E1, app_assoc.
  - injection E as <- <-. split; eauto.
Qed.
Lemma dstep_ret {A} (a : A) : dstep (retW a). Proof. now apply dstep_same. Qed.
Lemma dstep_lift {A} (r : Res A) : dstep (liftW r). Proof. now apply dstep_same. Qed.
Lemma dstep_self k : dstep (self (num:=num) k). Proof. now apply dstep_same. Qed.
Lemma dstep_fwrite t : dstep (fwrite t).
Proof. intros s r s' E. injection E as <- <-. simpl. split; eauto. Qed.
Lemma dstep_reverse k : dstep (reverse_in_place (num:=num) k).
Proof.
  apply dstep_bind; [apply dstep_self|]. intros v. apply dstep_bind; [apply dstep_lift|]. intros v'.
  intros s r s' E. injection E as <- <-. simpl. split; auto. exists []. now rewrite app_nil_r.
Qed.
Lemma dstep_forW {A} (l : list A) f : (forall a, dstep (f a)) -> dstep (forW l f).
Proof. induction l as [|x l IH]; simpl; intros Hf; [apply dstep_ret|]. apply dstep_bind; auto. Qed.

Ltac dstep_tac := repeat first
  [ apply dstep_ret | apply dstep_lift | apply dstep_self | apply dstep_fwrite | apply dstep_reverse
  | (apply dstep_forW; intros) | (apply dstep_bind; [|intros])
  | match goal with
    | |- dstep (if ?b then _ else _) => destruct b
    | |- dstep (match ?l with [] => _ | _ => _ end) => destruct l
    end ].
Lemma dstep_data c : dstep (writeData o c).
Proof.
  destruct c; simpl;
    unfold writeData_1001, writeData_1010, writeData_1020, writeData_2010, writeData_2110,
      writeData_2160, writeData_2310, write_x_aux, write_inner_2110, write_data_line, wrapLine,
      self_int, self_list; dstep_tac.
Qed.

(** The ignored header lines of FFI 2160. *)
Definition ign2160 : W unit :=
  bindW (self kIGN) (fun ign =>
   match ign with
   | PNone | PList [] => retW tt
   | PList l =>
       bindW (liftW (mapR (fun v => match v with PStr s => Ok s | _ => Err ETypeError end) l)) (fun ss =>
       bindW (fwrite (join nl ss)) (fun _ => fwrite nl))
   | _ => liftW (Err EUnmodelled)
   end).
Definition ign_step (c : cls) : W unit := match c with C2160 => ign2160 | _ => retW tt end.
Lemma dstep_ign c : dstep (ign_step c).
Proof.
  destruct c; simpl; try apply dstep_ret. unfold ign2160. apply dstep_bind; [apply dstep_self|].
  intros [| | | |[|v l]]; dstep_tac.
Qed.

(** ** Effect on the dictionary of a successful run. *)
Definition rev_key (k : key) (d : na num) : na num :=
  match attr d k with PList l => upd d k (PList (rev l)) | _ => d end.

Definition eff {A} (m : W A) (f : na num -> na num) : Prop :=
  forall s a s', m s = (Ok a, s') -> w_na s' = f (w_na s).
Definition pure {A} (m : W A) : Prop := forall s r s', m s = (r, s') -> w_na s' = w_na s.

Lemma pure_eff {A} (m : W A) : pure m -> eff m (fun d => d).
Proof. intros Hm s a s' E. now apply Hm in E. Qed.
Lemma pure_bind {A B} (m : W A) (f : A -> W B) :
  pure m -> (forall a, pure (f a)) -> pure (bindW m f).
Proof.
  intros Hm Hf s r s' E. unfold bindW in E. destruct (m s) as [[a|e] s1] eqn:Em.
  - rewrite (Hf _ _ _ _ E). eapply Hm; eauto.
  - injection E as <- <-. eapply Hm; eauto.
Qed.
Lemma eff_bind {A B} (m : W A) (k : A -> W B) f g :
  eff m f -> (forall a, eff (k a) g) -> eff (bindW m k) (fun d => g (f d)).
Proof.
  intros Hm Hk s b s' E. unfold bindW in E. destruct (m s) as [[a|e] s1] eqn:Em; [|discriminate].
  rewrite (Hk _ _ _ _ E). now rewrite (Hm _ _ _ Em).
Qed.
Lemma pure_ret {A} (a : A) : pure (retW a). Proof. intros s r s' E. now injection E as <- <-. Qed.
Lemma pure_lift {A} (r : Res A) : pure (liftW r). Proof. intros s r' s' E. now injection E as <- <-. Qed.
Lemma pure_self k : pure (self k). Proof. intros s r s' E. now injection E as <- <-. Qed.
Lemma pure_fwrite t : pure (fwrite t). Proof. intros s r s' E. now injection E as <- <-. Qed.
Lemma pure_hwrite t : pure (hwrite t). Proof. intros s r s' E. now injection E as <- <-. Qed.
Lemma pure_flush : pure flushHeader. Proof. intros s r s' E. now injection E as <- <-. Qed.
Lemma pure_fix : pure (fixHeaderLength o).
Proof.
  intros s r s' E. unfold fixHeaderLength in E. destruct (fmt_d _); [|now injection E as <- <-].
  destruct (annotateLine _ _ _ _); [|now injection E as <- <-].
  destruct (lines (w_head s)); now injection E as <- <-.
Qed.
Lemma pure_forW {A} (l : list A) f : (forall a, pure (f a)) -> pure (forW l f).
Proof. induction l as [|x l IH]; simpl; intros Hf; [apply pure_ret|]. apply pure_bind; auto. Qed.
Lemma eff_reverse k : eff (reverse_in_place k) (rev_key k).
Proof.
  intros s a s' E. unfold reverse_in_place, bindW, self, liftW in E. unfold rev_key.
  destruct (attr (w_na s) k); simpl in E; try discriminate. now injection E as <- <-.
Qed.

Ltac pure_tac := repeat first
  [ apply pure_ret | apply pure_lift | apply pure_self | apply pure_fwrite | apply pure_hwrite
  | apply pure_fix | apply pure_flush
  | (apply pure_forW; intros) | (apply pure_bind; [|intros])
  | match goal with
    | |- pure (if ?b then _ else _) => destruct b
    | |- pure (match ?l with [] => _ | _ => _ end) => destruct l
    end ].
Ltac unfold_w := unfold writeCommonHeader, writeVariablesHeaderSection, writeAuxVariablesHeaderSection,
  writeAuxVariablesHeaderSection_2160, writeComments,
  writeHeader_1001, writeHeader_1010, writeHeader_1020,
  writeData_1001, writeData_1010, writeData_1020, writeData_2110,
      writeData_2160, writeData_2310, write_x_aux, write_inner_2110, write_data_line, wrapLine, wrapLines,
      hwrap, hwraps, self_int, self_list in *.

Lemma pure_header_1 c : In c [C1001; C1010; C1020] -> pure (writeHeader o c).
Proof. intros [<-|[<-|[<-|[]]]]; simpl; unfold_w; pure_tac. Qed.
Lemma pure_data c : ~ In c [C2010; C3010; C4010] -> pure (writeData o c).
Proof. destruct c; simpl; intros Hc; try tauto; unfold_w; pure_tac. Qed.
Lemma pure_common : pure (writeCommonHeader o). Proof. unfold_w; pure_tac. Qed.
Lemma pure_vars : pure (writeVariablesHeaderSection o). Proof. unfold_w; pure_tac. Qed.
Lemma pure_aux : pure (writeAuxVariablesHeaderSection o). Proof. unfold_w; pure_tac. Qed.
Lemma pure_aux2160 : pure (writeAuxVariablesHeaderSection_2160 o). Proof. unfold_w; pure_tac. Qed.
Lemma pure_comments : pure (writeComments o). Proof. unfold_w; pure_tac. Qed.

Lemma eff_pure_bind {A B} (m : W A) (k : A -> W B) g :
  pure m -> (forall a, eff (k a) g) -> eff (bindW m k) g.
Proof. intros Hm Hk. apply (eff_bind m k (fun d => d) g); auto. now apply pure_eff. Qed.

Ltac peel := first [ apply pure_common | apply pure_vars | apply pure_aux | apply pure_aux2160 | apply pure_comments
                   | solve [unfold hwrap, hwraps, wrapLine, wrapLines, self_int, self_list; pure_tac] ].
Ltac eff_tac := repeat (first [ (apply eff_pure_bind; [solve [peel]|intros]) ]).

Lemma eff_data_2010 : eff (writeData_2010 o) (rev_key kNX).
Proof.
  unfold writeData_2010.
  apply (eff_bind _ _ (rev_key kNX) (fun d => d)); [apply eff_reverse|]. intros _.
  apply pure_eff. unfold write_x_aux, write_data_line, wrapLine, self_int, self_list. pure_tac.
Qed.

(** The keys reversed by the header writer and by the data writer. *)
Definition header_eff (c : cls) (d : na num) : na num :=
  match c with
  | C1001 | C1010 | C1020 => d
  | C2010 | C3010 | C4010 => rev_key kNX (rev_key kDX d)
  | C2110 | C2160 => rev_key kXNAME (rev_key kDX d)
  | C2310 => rev_key kXNAME d
  end.
Definition data_eff (c : cls) (d : na num) : na num :=
  match c with C2010 | C3010 | C4010 => rev_key kNX d | _ => d end.

Lemma eff_header_2010 : eff (writeHeader_2010 o) (fun d => rev_key kNX (rev_key kDX d)).
Proof.
  unfold writeHeader_2010. eff_tac.
  apply (eff_bind _ _ (rev_key kDX) (rev_key kNX)); [apply eff_reverse|]. intros _. eff_tac.
  apply (eff_bind _ _ (rev_key kNX) (fun d => d)); [apply eff_reverse|]. intros _. eff_tac.
  apply pure_eff, pure_flush.
Qed.
Lemma eff_header_2110 : eff (writeHeader_2110 o) (fun d => rev_key kXNAME (rev_key kDX d)).
Proof.
  unfold writeHeader_2110. eff_tac.
  apply (eff_bind _ _ (rev_key kDX) (rev_key kXNAME)); [apply eff_reverse|]. intros _. eff_tac.
  apply (eff_bind _ _ (rev_key kXNAME) (fun d => d)); [apply eff_reverse|]. intros _. eff_tac.
  apply pure_eff, pure_flush.
Qed.
Lemma pure_ign : pure ign2160.
Proof.
  unfold ign2160. apply pure_bind; [apply pure_self|]. intros [| | | |[|v l]]; pure_tac.
Qed.
Lemma eff_header_2160 : eff (writeHeader_2160 o) (fun d => rev_key kXNAME (rev_key kDX d)).
Proof.
  unfold writeHeader_2160. apply eff_pure_bind; [exact pure_ign|]. intros _. eff_tac.
  apply (eff_bind _ _ (rev_key kDX) (rev_key kXNAME)); [apply eff_reverse|]. intros _. eff_tac.
  apply (eff_bind _ _ (rev_key kXNAME) (fun d => d)); [apply eff_reverse|]. intros _. eff_tac.
  apply pure_eff, pure_flush.
Qed.
Lemma eff_header_2310 : eff (writeHeader_2310 o) (rev_key kXNAME).
Proof.
  unfold writeHeader_2310. eff_tac.
  apply (eff_bind _ _ (rev_key kXNAME) (fun d => d)); [apply eff_reverse|]. intros _. eff_tac.
  apply pure_eff, pure_flush.
Qed.
Lemma eff_header c : eff (writeHeader o c) (header_eff c).
Proof.
  destruct c; try apply pure_eff, pure_header_1; simpl; auto;
  first [exact eff_header_2010|exact eff_header_2110|exact eff_header_2160|exact eff_header_2310].
Qed.
Lemma eff_data c : eff (writeData o c) (data_eff c).
Proof.
  destruct c; try (apply pure_eff, pure_data; simpl; intuition discriminate); exact eff_data_2010.
Qed.

Lemma eff_body c nh : eff (write_body o c nh) (fun d => data_eff c (if nh then d else header_eff c d)).
Proof.
  unfold write_body. apply eff_pure_bind. { intros s r s' E. now injection E as <- <-. }
  intros _. destruct nh.
  - apply (eff_bind _ _ (fun d => d) (data_eff c)); [apply pure_eff, pure_ret|]. intros _. apply eff_data.
  - apply (eff_bind _ _ (header_eff c) (data_eff c)); [apply eff_header|]. intros _. apply eff_data.
Qed.

(** ** Determinism: the outcome and the text written depend only on the
    values of the dictionary. *)
Section Resp.
(** keys on which the two dictionaries agree; whether the header buffers agree *)
Variable K : key -> bool.
Variable hd : bool.
Definition agree (d1 d2 : na num) : Prop := forall k, K k = true -> d1 k = d2 k.
Definition rel (s1 s2 : wst num) : Prop :=
  agree (w_na s1) (w_na s2) /\ (hd = true -> w_head s1 = w_head s2).
Definition resp {A} (m : W A) : Prop := forall s1 s2, rel s1 s2 ->
  fst (m s1) = fst (m s2) /\ rel (snd (m s1)) (snd (m s2)) /\
  exists t, w_file (snd (m s1)) = w_file s1 ++ t /\ w_file (snd (m s2)) = w_file s2 ++ t.

Lemma resp_bind {A B} (m : W A) (f : A -> W B) :
  resp m -> (forall a, resp (f a)) -> resp (bindW m f).
Proof.
  intros Hm Hf s1 s2 R. destruct (Hm _ _ R) as (E & R' & t & T1 & T2). unfold bindW.
  destruct (m s1) as [r1 s1'], (m s2) as [r2 s2']; simpl in *. subst r2.
  destruct r1 as [a|e]; simpl.
  - destruct (Hf a _ _ R') as (E2 & R2 & t2 & U1 & U2). split; auto. split; auto.
    exists (t ++ t2). rewrite !app_assoc, <- T1, <- T2. auto.
  - split; auto. split; auto. exists t. auto.
Qed.
Lemma resp_const {A} (r : Res A) : resp (fun s => (r, s)).
Proof. intros s1 s2 R. simpl. split; auto. split; auto. exists []. now rewrite !app_nil_r. Qed.
Lemma resp_self k : K k = true -> resp (self k).
Proof.
  intros Hk s1 s2 R. simpl. split; [|split; auto].
  - unfold attr. now rewrite (proj1 R k Hk).
  - exists []. now rewrite !app_nil_r.
Qed.
Lemma resp_fwrite t : resp (fwrite t).
Proof. intros s1 s2 [R1 R2]. simpl. split; auto. split; [split; auto|]. exists t. auto. Qed.
Lemma resp_hwrite t : resp (hwrite t).
Proof.
  intros s1 s2 [R1 R2]. simpl. split; auto. split; [split; auto|].
  - intros E. now rewrite R2.
  - exists []. now rewrite !app_nil_r.
Qed.
Lemma resp_reset : resp (fun st => (Ok tt, mkW (w_file st) [] (w_na st))).
Proof.
  intros s1 s2 [R1 R2]. simpl. split; auto. split; [split; auto|]. exists []. now rewrite !app_nil_r.
Qed.
Lemma resp_reverse k : K k = true -> resp (reverse_in_place k).
Proof.
  intros Hk. apply resp_bind; [now apply resp_self|]. intros v. apply resp_bind; [apply resp_const|].
  intros v' s1 s2 [R1 R2]. simpl. split; auto. split; [split; auto|].
  - intros k' Hk'. simpl. unfold upd. destruct (key_beq k k'); auto.
  - exists []. now rewrite !app_nil_r.
Qed.
Lemma resp_forW {A} (l : list A) f : (forall a, resp (f a)) -> resp (forW l f).
Proof. induction l as [|x l IH]; simpl; intros Hf; [apply resp_const|]. apply resp_bind; auto. Qed.
End Resp.

Lemma resp_fix K : K kFFI = true -> resp K true (fixHeaderLength o).
Proof.
  intros HK s1 s2 [R1 R2]. specialize (R2 eq_refl). unfold fixHeaderLength.
  unfold attr. rewrite (R1 _ HK), R2.
  match goal with |- context [fmt_d ?x] => destruct (fmt_d x) end;
  [destruct (annotateLine _ _ _ _); [destruct (lines (w_head s2))|]|];
  simpl; (split; [auto|split; [split; auto|exists []; now rewrite !app_nil_r]]).
Qed.
Lemma resp_flush K : resp K true flushHeader.
Proof.
  intros s1 s2 [R1 R2]. specialize (R2 eq_refl). simpl. split; auto. split; [split; auto|].
  exists (w_head s1). now rewrite R2.
Qed.

Definition all_k : key -> bool := fun _ => true.
(** Keys read by the data writers. *)
Definition data_k : key -> bool := fun k =>
  match k with kDX | kXNAME => false | _ => true end.

Ltac resp_tac := repeat first
  [ apply resp_const | (apply resp_self; reflexivity) | apply resp_fwrite | apply resp_hwrite
  | apply resp_reset | (apply resp_reverse; reflexivity)
  | (apply resp_fix; reflexivity) | apply resp_flush
  | (apply resp_forW; intros) | (apply resp_bind; [|intros])
  | match goal with
    | |- resp _ _ (if ?b then _ else _) => destruct b
    | |- resp _ _ (match ?l with [] => _ | _ => _ end) => destruct l
    | |- resp _ _ (match ?l with PNone => _ | _ => _ end) => destruct l
    end ].

Lemma resp_data c hd K : K = data_k \/ K = all_k -> resp K hd (writeData o c).
Proof.
  intros [-> | ->]; destruct c; simpl;
  unfold writeData_1001, writeData_1010, writeData_1020, writeData_2010, writeData_2110,
      writeData_2160, writeData_2310, write_x_aux, write_inner_2110, write_data_line, wrapLine,
      self_int, self_list, retW, liftW; resp_tac.
Qed.
Lemma resp_header c : resp all_k true (writeHeader o c).
Proof.
  destruct c; simpl;
  unfold writeHeader_2010, writeHeader_2110, writeHeader_2160, writeHeader_2310; unfold_w;
  unfold retW, liftW; resp_tac.
Qed.
Lemma resp_body c nh : resp all_k true (write_body o c nh).
Proof.
  unfold write_body. apply resp_bind; [apply resp_reset|]. intros _.
  apply resp_bind; [destruct nh; [apply resp_const|apply resp_header]|]. intros _.
  apply resp_data. auto.
Qed.
(** ** Frame on the dictionary. *)
(** Items outside DX, NX, XNAME are never changed, whatever the outcome. *)
Definition keeps {A} (m : W A) : Prop := forall s r s', m s = (r, s') ->
  forall k, ~ In k [kDX; kNX; kXNAME] -> w_na s' k = w_na s k.
Lemma keeps_bind {A B} (m : W A) (f : A -> W B) :
  keeps m -> (forall a, keeps (f a)) -> keeps (bindW m f).
Proof.
  intros Hm Hf s r s' E k Hk. unfold bindW in E. destruct (m s) as [[a|e] s1] eqn:Em.
  - rewrite (Hf _ _ _ _ E k Hk). eapply Hm; eauto.
  - injection E as <- <-. eapply Hm; eauto.
Qed.
Lemma keeps_pure {A} (m : W A) : pure m -> keeps m.
Proof. intros Hm s r s' E k _. now rewrite (Hm _ _ _ E). Qed.
Lemma keeps_reverse k : In k [kDX; kNX; kXNAME] -> keeps (reverse_in_place k).
Proof.
  intros Hk. apply keeps_bind; [apply keeps_pure, pure_self|]. intros v.
  apply keeps_bind; [apply keeps_pure, pure_lift|]. intros v' s r s' E k' Hk'.
  injection E as <- <-. simpl. unfold upd. destruct (key_beq k k') eqn:E; auto.
  apply key_beq_true in E. congruence.
Qed.
Ltac keeps_tac := repeat first
  [ apply keeps_pure, pure_ign | apply keeps_pure, pure_ret | apply keeps_pure, pure_lift | apply keeps_pure, pure_self | apply keeps_pure, pure_fwrite
  | apply keeps_pure, pure_hwrite | apply keeps_pure, pure_fix | apply keeps_pure, pure_flush
  | apply keeps_pure, pure_common | apply keeps_pure, pure_vars | apply keeps_pure, pure_aux
  | apply keeps_pure, pure_aux2160 | apply keeps_pure, pure_comments
  | (apply keeps_pure, pure_forW; intros; solve [pure_tac])
  | (apply keeps_reverse; simpl; tauto) | (apply keeps_bind; [|intros]) ].
Lemma keeps_body c nh : keeps (write_body o c nh).
Proof.
  unfold write_body. apply keeps_bind.
  { intros s r s' E k _. now injection E as <- <-. }
  intros _. apply keeps_bind.
  - intros. destruct nh; [apply keeps_pure, pure_ret|].
    destruct c; try (apply keeps_pure, pure_header_1; simpl; tauto); simpl;
      unfold writeHeader_2010, writeHeader_2110, writeHeader_2160, writeHeader_2310, hwrap, hwraps,
        wrapLine, wrapLines, self_int, self_list; keeps_tac.
  - intros _. destruct c; try (apply keeps_pure, pure_data; simpl; intuition discriminate); simpl;
      unfold writeData_2010; (apply keeps_bind; [apply keeps_reverse; simpl; tauto|intros]);
      apply keeps_pure; unfold write_x_aux, write_data_line, wrapLine, self_int, self_list; pure_tac.
Qed.


(** ** Items that must be lists for the write to succeed. *)
Definition needs {A} (k : key) (m : W A) : Prop := forall s a s', m s = (Ok a, s') ->
  exists l, w_na s k = Some (PList l).
Definition keepk {A} (k : key) (m : W A) : Prop := forall s r s', m s = (r, s') ->
  w_na s' k = w_na s k.
Lemma keepk_pure {A} k (m : W A) : pure m -> keepk k m.
Proof. intros Hm s r s' E. now rewrite (Hm _ _ _ E). Qed.
Lemma needs_bind1 {A B} k (m : W A) (f : A -> W B) : needs k m -> needs k (bindW m f).
Proof.
  intros Hm s b s' E. unfold bindW in E. destruct (m s) as [[a|e] s1] eqn:Em; [|discriminate].
  eapply Hm; eauto.
Qed.
Lemma needs_bind2 {A B} k (m : W A) (f : A -> W B) : keepk k m -> (forall a, needs k (f a)) ->
  needs k (bindW m f).
Proof.
  intros Hm Hf s b s' E. unfold bindW in E. destruct (m s) as [[a|e] s1] eqn:Em; [|discriminate].
  rewrite <- (Hm _ _ _ Em). eapply Hf; eauto.
Qed.
Lemma needs_reverse k : default_attr (num:=num) k = PNone -> needs k (reverse_in_place k).
Proof.
  intros Hd s a s' E. unfold reverse_in_place, bindW, self, liftW, attr in E.
  destruct (w_na s k) as [[]|]; simpl in E; try discriminate; eauto.
  rewrite Hd in E. discriminate.
Qed.
Lemma keepk_reverse k k' : k' <> k -> keepk k (reverse_in_place k').
Proof.
  intros Hk s r s' E. unfold reverse_in_place, bindW, self, liftW in E.
  destruct (attr (w_na s) k'); simpl in E; injection E as <- <-; simpl; auto.
  unfold upd. destruct (key_beq k' k) eqn:Ek; auto. apply key_beq_true in Ek. congruence.
Qed.
Ltac needs_tac := repeat first
  [ (apply needs_bind1; apply needs_reverse; reflexivity)
  | (apply needs_bind2; [apply keepk_reverse; discriminate|intros])
  | (apply needs_bind2; [apply keepk_pure; first [exact pure_ign | peel]|intros]) ].
Lemma needs_header c k : In k (match c with
    | C2010 | C3010 | C4010 => [kDX; kNX] | C2110 | C2160 => [kDX; kXNAME]
    | C2310 => [kXNAME] | _ => [] end) -> needs k (writeHeader o c).
Proof.
  destruct c; simpl; intros Hk; repeat destruct Hk as [<-|Hk]; try contradiction;
  unfold writeHeader_2010, writeHeader_2110, writeHeader_2160, writeHeader_2310; needs_tac.
Qed.
Lemma needs_data c : In c [C2010; C3010; C4010] -> needs kNX (writeData o c).
Proof. intros [<-|[<-|[<-|[]]]]; simpl; unfold writeData_2010; needs_tac. Qed.

Lemma pure_body c nh : In c [C1001; C1010; C1020] -> pure (write_body o c nh).
Proof.
  intros Hc. unfold write_body. apply pure_bind. { intros s r s' E. now injection E as <- <-. }
  intros _. apply pure_bind; [destruct nh; [apply pure_ret|now apply pure_header_1]|].
  intros _. apply pure_data. destruct Hc as [<-|[<-|[<-|[]]]]; simpl; intuition discriminate.
Qed.

Lemma body_needs c nh f h (d : na num) st k : write_body o c nh (mkW f h d) = (Ok tt, st) ->
  In k (left_reversed c nh) -> exists l, d k = Some (PList l).
Proof.
  unfold write_body. unfold bindW at 1. intros E Hk.
  match type of E with ?m _ = _ => cut (needs k m) end.
  { intros K. destruct (K _ _ _ E) as (l & El). exists l. exact El. }
  destruct nh.
  - apply needs_bind2; [apply keepk_pure, pure_ret|]. intros _.
    destruct c; simpl in Hk; try contradiction; destruct Hk as [<-|[]]; apply needs_data; simpl; auto.
  - apply needs_bind1, needs_header. destruct c; simpl in *; tauto.
Qed.

Lemma rev_key_at k (d : na num) l : d k = Some (PList l) -> rev_key k d k = Some (PList (rev l)).
Proof. intros E. unfold rev_key, attr. rewrite E. unfold upd. now rewrite key_beq_refl. Qed.
Lemma rev_key_other k k' (d : na num) : k <> k' -> rev_key k d k' = d k'.
Proof.
  intros Hk. unfold rev_key. destruct (attr d k); auto. unfold upd.
  destruct (key_beq k k') eqn:E; auto. apply key_beq_true in E. congruence.
Qed.
Lemma rev_key_nolist k (d : na num) : default_attr (num:=num) k = PNone ->
  (forall l, d k <> Some (PList l)) -> rev_key k d = d.
Proof.
  intros Hd Hl. unfold rev_key, attr. destruct (d k) as [[]|]; try rewrite Hd; auto.
  exfalso. now apply (Hl l).
Qed.
Lemma rev_key_twice k k' (d : na num) : default_attr (num:=num) k = PNone ->
  rev_key k (rev_key k d) k' = d k'.
Proof.
  intros Hd. destruct (key_eq_dec k k') as [<-|n]; [|now rewrite !(rev_key_other k k')].
  destruct (d k) as [v|] eqn:E; [destruct v as [| | | |l]|];
    try (rewrite (rev_key_nolist k d), (rev_key_nolist k d); auto; intros; congruence).
  apply rev_key_at in E. apply rev_key_at in E. now rewrite rev_involutive in E.
Qed.

Lemma body_reversed c nh f h (d : na num) st : write_body o c nh (mkW f h d) = (Ok tt, st) ->
  (forall k, In k (left_reversed c nh) -> reversed_item d (w_na st) k) /\
  (forall k, ~ In k (left_reversed c nh) -> w_na st k = d k).
Proof.
  intros E. pose proof (eff_body c nh _ _ _ E) as K. simpl in K. split; intros k Hk.
  - destruct (body_needs _ _ _ _ _ _ _ E Hk) as (l & El). exists l. split; auto. rewrite K.
    destruct c, nh; simpl in *; try contradiction; repeat destruct Hk as [<-|Hk]; try contradiction;
    rewrite ?rev_key_twice by reflexivity;
    rewrite ?(rev_key_other kXNAME kDX) by discriminate;
    apply rev_key_at; rewrite ?(rev_key_other kDX kXNAME) by discriminate; auto.
  - rewrite K. destruct c, nh; simpl in *; auto;
    rewrite ?rev_key_twice by reflexivity; rewrite !rev_key_other; auto; tauto.
Qed.

Lemma write_same c nh f1 f2 h1 h2 (d1 d2 : na num) : (forall k, d1 k = d2 k) ->
  fst (write_body o c nh (mkW f1 h1 d1)) = fst (write_body o c nh (mkW f2 h2 d2)) /\
  exists t, w_file (snd (write_body o c nh (mkW f1 h1 d1))) = f1 ++ t /\
            w_file (snd (write_body o c nh (mkW f2 h2 d2))) = f2 ++ t.
Proof.
  intros Hd. unfold write_body.
  set (m := fun _ : unit => bindW (if nh then retW tt else writeHeader o c) (fun _ => writeData o c)).
  assert (K : resp all_k true (m tt)).
  { apply resp_bind; [destruct nh; [apply resp_const|apply resp_header]|]. intros _. apply resp_data. auto. }
  destruct (K (mkW f1 [] d1) (mkW f2 [] d2)) as (K1 & _ & K2).
  { split; [intros k _; apply Hd|reflexivity]. }
  split; [exact K1|exact K2].
Qed.

(** With two independent variables NX has one item when the header of FFI 2010
    can be written. *)
Definition nx1 (d : na num) : Prop := attr d kNIV = PInt 2 ->
  forall l, d kNX = Some (PList l) -> length l = 1%nat.
Definition asks {A} (m : W A) : Prop := forall s a s', m s = (Ok a, s') -> nx1 (w_na s).
Definition back {A} (m : W A) : Prop := forall s r s', m s = (r, s') -> nx1 (w_na s') -> nx1 (w_na s).
Lemma asks_bind1 {A B} (m : W A) (f : A -> W B) : asks m -> asks (bindW m f).
Proof.
  intros Hm s b s' E. unfold bindW in E. destruct (m s) as [[a|e] s1] eqn:Em; [|discriminate].
  eapply Hm; eauto.
Qed.
Lemma asks_bind2 {A B} (m : W A) (f : A -> W B) : back m -> (forall a, asks (f a)) -> asks (bindW m f).
Proof.
  intros Hm Hf s b s' E. unfold bindW in E. destruct (m s) as [[a|e] s1] eqn:Em; [|discriminate].
  eapply Hm; eauto. eapply Hf; eauto.
Qed.
Lemma back_pure {A} (m : W A) : pure m -> back m.
Proof. intros Hm s r s' E. now rewrite (Hm _ _ _ E). Qed.
Lemma back_dx : back (reverse_in_place kDX).
Proof.
  intros s r s' E Hs. unfold nx1, attr in *.
  pose proof (keepk_reverse kNX kDX ltac:(discriminate) _ _ _ E) as K1.
  pose proof (keepk_reverse kNIV kDX ltac:(discriminate) _ _ _ E) as K2. now rewrite K1, K2 in Hs.
Qed.
Lemma back_nx : back (reverse_in_place kNX).
Proof.
  intros s r s' E Hs Hn l El. pose proof (keepk_reverse kNIV kNX ltac:(discriminate) _ _ _ E) as K2.
  unfold nx1, attr in *. rewrite K2 in Hs. specialize (Hs Hn).
  unfold reverse_in_place, bindW, self, liftW, attr in E. rewrite El in E. simpl in E.
  injection E as <- <-. simpl in Hs. rewrite <- rev_length. apply Hs. reflexivity.
Qed.
Lemma asks_header_2010 : asks (writeHeader_2010 o).
Proof.
  unfold writeHeader_2010.
  apply asks_bind2; [apply back_pure; peel|intros].
  apply asks_bind2; [apply back_dx|intros].
  apply asks_bind2; [apply back_pure; peel|intros].
  apply asks_bind2; [apply back_nx|intros].
  apply asks_bind1. intros s b s' E Hn l El.
  unfold self_int, self_list, bindW, self, liftW in E. rewrite Hn in E. simpl in E.
  unfold attr in E. rewrite El in E. unfold fmt_sep in E. destruct l as [|v [|]]; simpl in E; auto; discriminate.
Qed.

Lemma no_header_same c f h f' h' (d : na num) s1 :
  writeHeader o c (mkW f [] d) = (Ok tt, s1) ->
  ~ In c [C2010; C3010; C4010] \/ attr d kNIV = PInt 2 \/ palindromic (attr d kNX) ->
  fst (write_body o c true (mkW f' h' d)) = fst (write_body o c false (mkW f h d)) /\
  exists data,
    w_file (snd (write_body o c false (mkW f h d))) = w_file s1 ++ data /\
    w_file (snd (write_body o c true (mkW f' h' d))) = f' ++ data.
Proof.
  intros E Hc.
  assert (A : agree data_k (w_na s1) d).
  { intros k Hk. rewrite (eff_header c _ _ _ E). simpl w_na.
    assert (H1 : k <> kDX) by (intros ->; discriminate).
    assert (H2 : k <> kXNAME) by (intros ->; discriminate).
    destruct (in_dec (fun a b : cls => ltac:(decide equality)) c [C2010; C3010; C4010]) as [i|n].
    - destruct Hc as [Hc|Hc]; [contradiction|].
      assert (Hh : header_eff c d k = rev_key kNX (rev_key kDX d) k)
        by (destruct i as [<-|[<-|[<-|[]]]]; reflexivity).
      rewrite Hh. destruct (key_eq_dec kNX k) as [<-|n]; [|now rewrite !rev_key_other by auto].
      destruct (needs_header c kNX) with (2 := E) as (l & El); [destruct i as [<-|[<-|[<-|[]]]]; simpl; auto|].
      simpl in El. rewrite El. rewrite (rev_key_at _ _ l) by (rewrite rev_key_other; auto; discriminate).
      f_equal. f_equal. destruct Hc as [Hn|Hp].
      + assert (K : length l = 1%nat).
        { assert (K : asks (writeHeader o c)) by (destruct i as [<-|[<-|[<-|[]]]]; exact asks_header_2010).
          apply (K _ _ _ E Hn l El). }
        destruct l as [|v [|]]; simpl in K; try discriminate. reflexivity.
      + apply Hp. unfold attr. now rewrite El.
    - destruct c; simpl; try (exfalso; apply n; simpl; tauto); rewrite ?rev_key_other by auto; auto. }
  unfold write_body, bindW. cbn [w_file w_na fst snd]. rewrite E.
  destruct (resp_data c false data_k (or_introl eq_refl) s1 (mkW f' [] d)) as (K1 & _ & t & T1 & T2).
  { split; auto. discriminate. }
  split; [now symmetry|]. exists t. auto.
Qed.
End Sim.
