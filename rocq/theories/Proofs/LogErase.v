(** The call by call writer and the writer of Model/NAWrite.v agree. *)
From Coq Require Import List NArith ZArith Bool Lia.
From Verif Require Import Py.Str Py.Res Py.Num Model.Dict Model.TextParser Model.CommonUtils Model.NAWrite.
From Verif Require Model.NAWriteLog.
Import ListNotations.

Section Erase.
Context {num : Type} `{NumOps num}.
Variable o : opts num.
(** The states agree: the file text is [f0] followed by the texts of the calls. *)
Variable f0 : str.
Definition same (s : wst num) (t : NAWriteLog.lst num) : Prop :=
  w_file s = f0 ++ concat (NAWriteLog.l_calls t) /\ w_head s = NAWriteLog.l_head t /\ w_na s = NAWriteLog.l_na t.
Definition er {A} (m : W num A) (n : NAWriteLog.L num A) : Prop := forall s t, same s t ->
  fst (m s) = fst (n t) /\ same (snd (m s)) (snd (n t)).

Lemma er_bind {A B} (m : W num A) n (f : A -> W num B) g :
  er m n -> (forall a, er (f a) (g a)) -> er (bindW m f) (NAWriteLog.bindL n g).
Proof.
  intros Hm Hf s t S. destruct (Hm s t S) as [E S']. unfold bindW, NAWriteLog.bindL.
  destruct (m s) as [r s'], (n t) as [r' t']. cbn [fst snd] in *. subst r'. destruct r as [a|e]; [now apply Hf|]. auto.
Qed.
Lemma er_ret {A} (a : A) : er (retW a) (NAWriteLog.retL a). Proof. now intros s t S. Qed.
Lemma er_lift {A} (r : Res A) : er (liftW r) (NAWriteLog.liftL r). Proof. now intros s t S. Qed.
Lemma er_self k : er (self k) (NAWriteLog.self k).
Proof. intros s t S. split; [|exact S]. destruct S as (_ & _ & S). cbn. now rewrite S. Qed.
Lemma er_hwrite x : er (hwrite x) (NAWriteLog.hwrite x).
Proof. intros s t (S1 & S2 & S3). split; [reflexivity|]. repeat split; cbn; congruence. Qed.
Lemma er_fwrite x : er (fwrite x) (NAWriteLog.fwrite x).
Proof.
  intros s t (S1 & S2 & S3). split; [reflexivity|]. repeat split; cbn; try congruence.
  rewrite concat_app. cbn. now rewrite S1, app_nil_r, app_assoc.
Qed.
Lemma er_flush : er flushHeader NAWriteLog.flushHeader.
Proof.
  intros s t (S1 & S2 & S3). split; [reflexivity|]. repeat split; cbn; try congruence.
  rewrite concat_app. cbn. now rewrite S1, S2, app_nil_r, app_assoc.
Qed.
Lemma er_reverse k : er (reverse_in_place k) (NAWriteLog.reverse_in_place k).
Proof.
  apply er_bind; [apply er_self|]. intros v. apply er_bind; [apply er_lift|]. intros v'.
  intros s t (S1 & S2 & S3). split; [reflexivity|]. repeat split; cbn; congruence.
Qed.
Lemma er_reset : er (fun st => (Ok tt, mkW (w_file st) [] (w_na st))) (fun st => (Ok tt, NAWriteLog.mkL (NAWriteLog.l_calls st) [] (NAWriteLog.l_na st))).
Proof. intros s t (S1 & S2 & S3). split; [reflexivity|]. repeat split; cbn; congruence. Qed.
Lemma er_fix : er (fixHeaderLength o) (NAWriteLog.fixHeaderLength o).
Proof.
  intros s t (S1 & S2 & S3). unfold fixHeaderLength, NAWriteLog.fixHeaderLength. cbv zeta. rewrite S2, S3.
  destruct (fmt_d (attr (NAWriteLog.l_na t) kFFI)) as [ffi|]; [|repeat split; auto].
  destruct (annotateLine _ _ _ _) as [l0|]; [|repeat split; auto].
  destruct (lines (NAWriteLog.l_head t)); repeat split; auto.
Qed.
Lemma er_forW {A} (l : list A) f g : (forall a, er (f a) (g a)) -> er (forW l f) (NAWriteLog.forL l g).
Proof. induction l as [|x l IH]; cbn; intros Hf; [apply er_ret|]. apply er_bind; auto. Qed.

Ltac er_tac := repeat first
  [ apply er_ret | apply er_lift | apply er_self | apply er_fwrite | apply er_hwrite | apply er_flush | apply er_fix
  | apply er_reverse | apply er_reset
  | (apply er_forW; intros) | (apply er_bind; [|intros])
  | match goal with
    | |- er (if ?b then _ else _) _ => destruct b
    | |- er (match ?l with [] => _ | _ => _ end) _ => destruct l
    | |- er (match ?l with PNone => _ | _ => _ end) _ => destruct l
    end ].
Lemma er_body c nh : er (write_body o c nh) (NAWriteLog.write_body o c nh).
Proof.
  unfold write_body, NAWriteLog.write_body. apply er_bind; [apply er_reset|]. intros _. apply er_bind.
  - destruct nh; [apply er_ret|].
    destruct c; cbn [writeHeader NAWriteLog.writeHeader];
    unfold writeHeader_1001, writeHeader_1010, writeHeader_1020, writeHeader_2010, writeHeader_2110, writeHeader_2160, writeHeader_2310,
      writeCommonHeader, writeVariablesHeaderSection, writeAuxVariablesHeaderSection,
      writeAuxVariablesHeaderSection_2160, writeComments, wrapLine, wrapLines, hwrap, hwraps, self_int, self_list,
      NAWriteLog.writeHeader_1001, NAWriteLog.writeHeader_1010, NAWriteLog.writeHeader_1020, NAWriteLog.writeHeader_2010, NAWriteLog.writeHeader_2110, NAWriteLog.writeHeader_2160,
      NAWriteLog.writeHeader_2310, NAWriteLog.writeCommonHeader, NAWriteLog.writeVariablesHeaderSection, NAWriteLog.writeAuxVariablesHeaderSection,
      NAWriteLog.writeAuxVariablesHeaderSection_2160, NAWriteLog.writeComments, NAWriteLog.wrapLine, NAWriteLog.wrapLines, NAWriteLog.hwrap, NAWriteLog.hwraps, NAWriteLog.self_int, NAWriteLog.self_list;
    er_tac.
  - intros _. destruct c; cbn [writeData NAWriteLog.writeData];
    unfold writeData_1001, writeData_1010, writeData_1020, writeData_2010, writeData_2110, writeData_2160, writeData_2310,
      write_x_aux, write_inner_2110, write_data_line, wrapLine, self_int, self_list,
      NAWriteLog.writeData_1001, NAWriteLog.writeData_1010, NAWriteLog.writeData_1020, NAWriteLog.writeData_2010, NAWriteLog.writeData_2110, NAWriteLog.writeData_2160, NAWriteLog.writeData_2310,
      NAWriteLog.write_x_aux, NAWriteLog.write_inner_2110, NAWriteLog.write_data_line, NAWriteLog.wrapLine, NAWriteLog.self_int, NAWriteLog.self_list;
    er_tac.
Qed.
End Erase.

(** Same outcome, same dictionary, and the file text is the calls put together. *)
Lemma log_erase {num} `{NumOps num} (o : opts num) c nh f h d :
  let w := write_body o c nh (mkW f h d) in
  let t := NAWriteLog.write_body o c nh (NAWriteLog.mkL [] h d) in
  fst w = fst t /\ w_file (snd w) = f ++ concat (NAWriteLog.l_calls (snd t)) /\ w_na (snd w) = NAWriteLog.l_na (snd t).
Proof.
  destruct (er_body o f c nh (mkW f h d) (NAWriteLog.mkL [] h d)) as (E & S1 & _ & S3).
  - repeat split. cbn. now rewrite app_nil_r.
  - auto.
Qed.
