(** The header and the data section of a written file depend on different items. *)
From Coq Require Import List NArith ZArith Bool Lia.
From Verif Require Import Py.Str Py.Res Py.Num Model.Dict Model.TextParser Model.CommonUtils
  Model.NARead Model.NAWrite Spec.SectionSpec Spec.WholeNum Proofs.WriteSim Props.RewriteProps.
Import ListNotations.

Definition has (l : list key) (k : key) : bool := existsb (key_beq k) l.
Lemma has_in l k : has l k = true <-> In k l.
Proof.
  unfold has. rewrite existsb_exists. split.
  - intros (x & Hx & E). apply key_beq_true in E. now subst.
  - intros Hk. exists k. split; [exact Hk|apply key_beq_refl].
Qed.

Section C152.
Context {num : Type} `{NumOps num}.
Variable o : opts num.

Ltac resp_tac := repeat first
  [ apply resp_const | (apply resp_self; reflexivity) | apply resp_fwrite | apply resp_hwrite
  | apply resp_reset | (apply resp_reverse; reflexivity)
  | (apply resp_fix; reflexivity) | apply resp_flush
  | (apply resp_forW; intros) | (apply resp_bind; [|intros])
  | match goal with
    | |- resp _ _ (if ?b then _ else _) => destruct b
    | |- resp _ _ (match ?l with [] => _ | _ => _ end) => destruct l
    | |- resp _ _ (match ?l with PNone => _ | _ => _ end) => destruct l
    end ].
Lemma data_resp c hd : resp (has (data_items c)) hd (writeData o c).
Proof.
  destruct c; cbn [writeData];
  unfold writeData_1001, writeData_1010, writeData_1020, writeData_2010, writeData_2110,
      writeData_2160, writeData_2310, write_x_aux, write_inner_2110, write_data_line, wrapLine,
      self_int, self_list, retW, liftW; resp_tac.
Qed.
Lemma header_resp c : resp (fun k => negb (has (only_data c) k)) true (writeHeader o c).
Proof.
  destruct c; cbn [writeHeader];
  unfold writeHeader_1001, writeHeader_1010, writeHeader_1020, writeHeader_2010, writeHeader_2110, writeHeader_2160, writeHeader_2310,
    writeCommonHeader, writeVariablesHeaderSection, writeAuxVariablesHeaderSection, writeAuxVariablesHeaderSection_2160, writeComments,
    hwrap, hwraps, wrapLine, wrapLines, self_int, self_list, retW, liftW; resp_tac.
Qed.

(** The text that a step of the writer adds to the file. *)
Definition same_text {A} (f f' : str) (p p' : Res A * wst num) : Prop :=
  fst p = fst p' /\ exists t, w_file (snd p) = f ++ t /\ w_file (snd p') = f' ++ t.

(** The header does not depend on the values: outcome and text are the same for
    dictionaries that differ only there. *)
Theorem C152_header : forall c (d d' : na num) f f', (forall k, ~ In k (only_data c) -> d k = d' k) ->
  same_text f f' (writeHeader o c (mkW f [] d)) (writeHeader o c (mkW f' [] d')).
Proof.
  intros c d d' f f' Hd. destruct (header_resp c (mkW f [] d) (mkW f' [] d')) as (E & _ & T).
  - split; [|reflexivity]. intros k Hk. apply Hd. rewrite <- has_in. now destruct (has (only_data c) k).
  - split; [exact E|exact T].
Qed.
(** The data section does not depend on anything else than values and their
    numbers. *)
Theorem C152_data : forall c (d d' : na num) f f' h h', (forall k, In k (data_items c) -> d k = d' k) ->
  same_text f f' (write_body o c true (mkW f h d)) (write_body o c true (mkW f' h' d')).
Proof.
  intros c d d' f f' h h' Hd. unfold write_body, bindW. cbn [retW w_file w_na].
  destruct (data_resp c false (mkW f [] d) (mkW f' [] d')) as (E & _ & T).
  - split; [|discriminate]. intros k Hk. apply Hd. now apply has_in.
  - split; [exact E|exact T].
Qed.
Lemma rev_agree k0 k (d d' : na num) : d k = d' k -> rev_key k0 d k = rev_key k0 d' k.
Proof.
  intros E. destruct (key_beq k0 k) eqn:Ek.
  - apply key_beq_true in Ek. subst k0. unfold rev_key, attr. rewrite E. destruct (match d' k with Some v => v | None => default_attr k end); unfold upd; rewrite ?key_beq_refl; auto.
  - assert (K : forall d0 : na num, rev_key k0 d0 k = d0 k) by (intros d0; unfold rev_key; destruct (attr d0 k0); unfold upd; rewrite ?Ek; reflexivity).
    now rewrite !K.
Qed.
(** In whole files: what one writes is the header, and the same data. *)
Theorem C152_file : forall c (d d' : na num) f f' h h' st st', (forall k, In k (data_items c) -> d k = d' k) ->
  write_body o c false (mkW f h d) = (Ok tt, st) -> write_body o c false (mkW f' h' d') = (Ok tt, st') ->
  exists header header' data, w_file st = header ++ data /\ w_file st' = header' ++ data /\
    header = w_file (snd (writeHeader o c (mkW f [] d))) /\ header' = w_file (snd (writeHeader o c (mkW f' [] d'))).
Proof.
  intros c d d' f f' h h' st st' Hd E E'. unfold write_body, bindW in E, E'. cbn [w_file w_na] in E, E'.
  destruct (writeHeader o c (mkW f [] d)) as [[[]|] s1] eqn:E1; [|discriminate E]. destruct (writeHeader o c (mkW f' [] d')) as [[[]|] s1'] eqn:E1'; [|discriminate E'].
  pose proof (eff_header o c _ _ _ E1) as N. pose proof (eff_header o c _ _ _ E1') as N'. cbn [w_na] in N, N'.
  destruct (data_resp c false s1 s1') as (_ & _ & t & T & T').
  - split; [|discriminate]. intros k Hk. apply has_in in Hk. rewrite N, N'.
    destruct c; cbn [header_eff]; repeat apply rev_agree; now apply Hd.
  - rewrite E in T. rewrite E' in T'. cbn [snd] in T, T'. exists (w_file s1), (w_file s1'), t. auto.
Qed.
End C152.
Print Assumptions C152_header.
Print Assumptions C152_data.
Print Assumptions C152_file.

(** Another organisation and one more comment: another header, the same data.
    The grids in another order: the same header, other data. *)
Definition original : na whole := dict_or (read_file typed_2010 0).
Definition other_header : na whole := upd (upd (upd original kORG (PStr (lit "Other"))) kNCOM (PList [PStr (lit "one"); PStr (lit "two")])) kNNCOML (PInt 2).
Definition other_values : na whole := upd original kV (match attr original kV with PList [PList l] => PList [PList (rev l)] | v => v end).
Definition written (d : na whole) := write_body opts_whole C2010 false (mkW [] [] d).
Definition header_of (d : na whole) := w_file (snd (writeHeader opts_whole C2010 (mkW [] [] d))).
Example C152_example :
  (forall k, In k (data_items C2010) -> original k = other_header k) /\ (forall k, ~ In k (only_data C2010) -> original k = other_values k) /\
  fst (written original) = Ok tt /\ fst (written other_header) = Ok tt /\ fst (written other_values) = Ok tt /\
  header_of other_header <> header_of original /\ header_of other_values = header_of original /\
  w_file (snd (written other_values)) <> w_file (snd (written original)) /\
  exists data, data <> [] /\ w_file (snd (written original)) = header_of original ++ data /\ w_file (snd (written other_header)) = header_of other_header ++ data.
Proof.
  split; [intros k Hk; repeat (destruct Hk as [<-|Hk]; [reflexivity|]); contradiction|].
  split; [intros k Hk; unfold other_values, upd; destruct (key_beq kV k) eqn:E; [apply key_beq_true in E; subst k; destruct Hk; cbn; tauto|reflexivity]|].
  split; [vm_compute; reflexivity|]. split; [vm_compute; reflexivity|]. split; [vm_compute; reflexivity|].
  split; [vm_compute; discriminate|]. split; [vm_compute; reflexivity|]. split; [vm_compute; discriminate|].
  exists (skipn (length (header_of original)) (w_file (snd (written original)))). split; [vm_compute; discriminate|]. split; vm_compute; reflexivity.
Qed.
