(** What every dictionary that was read from a file has. *)
From Coq Require Import List NArith ZArith Bool Lia.
From Verif Require Import Py.Str Py.Res Py.Num Py.Arith Model.Dict Model.CommonUtils Model.NARead Model.NACore Proofs.ReadFrame.
Import ListNotations.

Section ReadFile.
Context {num : Type} `{NumOps num}.
Definition data_keys : list key := [kX; kV; kA; kNX; kDX].
Lemma readData_frame (h : na num) c content d : readData h c content = Ok d -> forall k, ~ In k data_keys -> d k = h k.
Proof.
  unfold readData. destruct (setupArrays h c); cbn [bindR]; [| discriminate].
  destruct (h_int h kNLHEAD); cbn [bindR]; [| discriminate].
  destruct (checkForBlankLines _ _); cbn [bindR]; [| discriminate].
  destruct (data_loop _ _ _ _ _ _); cbn [bindR]; [| discriminate].
  intros Ed k Hk. injection Ed as <-. cbn in Hk. unfold store.
  destruct c; cbv zeta; rewrite !upd_other by (intros <-; tauto); reflexivity.
Qed.
Lemma read_file_inv content ignore c (d : na num) : read_file content ignore = Ok (c, d) ->
  exists h line, header_read c h line ignore /\ readData h c content = Ok d /\ (forall k, ~ In k data_keys -> d k = h k) /\
    attr d kFFI = PInt (cls_ffi c) /\ attr d kNIV = PInt (cls_ffi c / 1000).
Proof.
  intros E. unfold read_file in E.
  destruct (openNAFile_r content ignore) as [[c0 h]|] eqn:Eo; cbn [bindR] in E; [|discriminate].
  cbn [fst snd] in E. destruct (readData h c0 content) as [d0|] eqn:Ed; cbn [bindR] in E; [|discriminate].
  injection E as -> ->. apply top_line_read in Eo as (nlh & ffi & _ & Hh & Ef & Ec).
  assert (Fr := readData_frame _ _ _ _ Ed).
  destruct (hr_common _ _ _ _ Hh) as (ffi' & nlh' & C). pose proof (mr_niv _ _ _ _ _ C) as Hn.
  pose proof (mr_ffi _ _ _ _ _ C) as Hf. rewrite Ef in Hf. injection Hf as <-.
  assert (ffi = cls_ffi c) as ->.
  { unfold getNAFileClass in Ec. destruct (find _ all_cls) as [c1|] eqn:F; [|discriminate].
    injection Ec as ->. apply find_some in F as [_ F]. apply Z.eqb_eq in F. congruence. }
  exists h. eexists. split; [exact Hh |]. split; [exact Ed |]. split; [exact Fr |].
  unfold attr. rewrite !Fr by (cbn; intuition discriminate). rewrite Ef, Hn. split; [reflexivity | destruct c; reflexivity].
Qed.
End ReadFile.
