(** Facts about the header of a complete write, all classes. *)
From Coq Require Import List NArith ZArith Bool Lia.
From Verif Require Import Py.Str Py.Res Py.Num Model.Dict Model.TextParser Model.CommonUtils
  Model.NAWrite Spec.CharSpec Proofs.StrLemmas Proofs.NumLemmas Proofs.TextLemmas Proofs.WriteFrame
  Proofs.WriteSim Proofs.WriteChars.
Import ListNotations.

Section Header.
Context {num : Type} `{NumOps num}.
Variable o : opts num.
Local Notation W := (W num).

(** The rest of the 2160 header writer. *)
Lemma tail_2160 : exists m : W unit, writeHeader_2160 o = bindW ign2160 (fun _ => m)
  /\ hdr_tail o m /\ hdr_err m.
Proof.
  eexists. split; [reflexivity|]. split.
  - repeat first [exact (finish_tail o)| (apply tail_bind; [|intros])
      | apply hstep_common | apply hstep_vars | apply hstep_aux2160
      | apply hstep_ret | apply hstep_lift | apply hstep_self | apply hstep_self_int
  | apply hstep_self_list | apply hstep_hwrite | apply hstep_hwrap | apply hstep_hwraps
  | (apply hstep_reverse; simpl; tauto) | (apply hstep_bind; [|intros]) ].
  - repeat first [exact (finish_err o)| (apply err_bind; [|intros])
      | apply hstep_common | apply hstep_vars | apply hstep_aux2160
      | apply hstep_ret | apply hstep_lift | apply hstep_self | apply hstep_self_int
  | apply hstep_self_list | apply hstep_hwrite | apply hstep_hwrap | apply hstep_hwraps
  | (apply hstep_reverse; simpl; tauto) | (apply hstep_bind; [|intros]) ].
Qed.

Lemma header_good c s s' : writeHeader o c s = (Ok tt, s') ->
  exists si, ign_step c s = (Ok tt, si) /\ w_na si = w_na s /\ good_header o si s'.
Proof.
  intros E. destruct c; simpl in *;
    try (exists s; split; [reflexivity|]; split; [reflexivity|];
         revert E; first [apply tail_1001|apply tail_1010|apply tail_1020|apply tail_2010|apply tail_2110|apply tail_2310]).
  destruct tail_2160 as (m & Em & Ht & _). rewrite Em in E. unfold bindW in E.
  destruct (ign2160 s) as [[[]|e] si] eqn:Ei; [|discriminate].
  exists si. split; auto. split; [eapply pure_ign; eauto|]. now apply Ht.
Qed.
Lemma header_fail c s e s' : writeHeader o c s = (Err e, s') ->
  w_file s' = w_file (snd (ign_step c s)).
Proof.
  intros E. destruct c; simpl in *; try (
    revert E; first [apply err_1001|apply err_1010|apply err_1020|apply err_2010|apply err_2110|apply err_2310]).
  destruct tail_2160 as (m & Em & _ & Ht). rewrite Em in E. unfold bindW in E.
  destruct (ign2160 s) as [[[]|e1] si] eqn:Ei; simpl; [|congruence]. now apply Ht in E.
Qed.

Lemma fmt_d_chars (v : pyv num) s : fmt_d v = Ok s -> forallb is_intchr s = true.
Proof.
  destruct v; simpl; try discriminate.
  - intros [= <-]. apply dec_of_Z_chars.
  - destruct (num_trunc x); [|discriminate]. intros [= <-]. apply dec_of_Z_chars.
Qed.
Lemma intchr_no_nl s : forallb is_intchr s = true -> mem_chr c_nl s = false.
Proof.
  intros Hs. apply mem_chr_false. intros Hi. rewrite forallb_forall in Hs. specialize (Hs _ Hi).
  discriminate.
Qed.

(** Decomposition of a successful full write. *)
Lemma body_ok c f h d st : write_body o c false (mkW f h d) = (Ok tt, st) ->
  exists s1, writeHeader o c (mkW f [] d) = (Ok tt, s1) /\ writeData o c s1 = (Ok tt, st).
Proof.
  unfold write_body, bindW. simpl.
  destruct (writeHeader o c (mkW f [] d)) as [[[]|e] s1] eqn:E; [|discriminate]. eauto.
Qed.
Lemma body_ok_nh c f h (d : na num) st : write_body o c true (mkW f h d) = (Ok tt, st) <->
  writeData o c (mkW f [] d) = (Ok tt, st).
Proof. reflexivity. Qed.

(** The ignored header lines written before the header. *)
Lemma ign_nil c (d : na num) : c <> C2160 \/ attr d kIGN = PNone \/ attr d kIGN = PList [] ->
  forall f h, ign_step c (mkW f h d) = (Ok tt, mkW f h d).
Proof.
  intros Hc f h. destruct c; try reflexivity. destruct Hc as [Hc|Hc]; [congruence|].
  simpl. unfold ign2160, bindW, self. simpl. destruct Hc as [-> | ->]; reflexivity.
Qed.

(** ** Universal newlines *)
Lemma starts_nl_app a b : a <> [] -> starts_nl (a ++ b) = starts_nl a.
Proof. destruct a; [congruence|reflexivity]. Qed.

Lemma univ_newlines_app a b : ends_nl a -> univ_newlines (a ++ b) = univ_newlines a ++ univ_newlines b.
Proof.
  intros [->|(t & ->)]; auto. rewrite <- app_assoc. induction t as [|c t IH]; [reflexivity|].
  cbn [app univ_newlines] in *. rewrite IH.
  destruct (c =? c_cr)%N; [|reflexivity].
  replace (starts_nl (t ++ c_nl :: b)) with (starts_nl (t ++ [c_nl]));
    [destruct (starts_nl _); reflexivity|].
  destruct t; reflexivity.
Qed.

Lemma univ_newlines_count s : count_chr c_nl (univ_newlines s) = (count_chr c_nl s + lone_cr s)%nat.
Proof.
  induction s as [|c s IH]; auto. cbn [univ_newlines count_chr lone_cr].
  destruct (N.eqb_spec c c_cr) as [->|Hc].
  - change (c_cr =? c_nl)%N with false. destruct (starts_nl s); [rewrite IH; lia|].
    cbn [count_chr]. change (c_nl =? c_nl)%N with true. rewrite IH. lia.
  - cbn [count_chr]. destruct (c =? c_nl)%N; rewrite IH; lia.
Qed.

Lemma univ_newlines_ends s : ends_nl s -> ends_nl (univ_newlines s).
Proof.
  intros [->|(t & ->)]; [now left|]. induction t as [|c t IH].
  - right. exists []. reflexivity.
  - cbn [app univ_newlines]. assert (Hn : univ_newlines (t ++ [c_nl]) <> []).
    { destruct (t ++ [c_nl]) as [|x y] eqn:E; [now destruct t|].
      cbn. destruct (x =? c_cr)%N; [destruct (starts_nl y) eqn:Ey|]; try discriminate.
      destruct y as [|z y]; [discriminate|]. cbn in *. destruct (N.eqb_spec z c_cr); [|discriminate].
      subst. discriminate. }
    destruct (c =? c_cr)%N; [destruct (starts_nl _); auto|].
    + apply (ends_nl_app [c_nl]); auto.
    + apply (ends_nl_app [c]); auto.
Qed.
Lemma lone_cr_absent s : ~ In c_cr s -> lone_cr s = O.
Proof.
  induction s as [|c s IH]; auto. intros Hn. simpl.
  destruct (N.eqb_spec c c_cr) as [->|_]; [exfalso; apply Hn; now left|].
  apply IH. intros Hi. apply Hn. now right.
Qed.
End Header.
