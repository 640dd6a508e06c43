(** The last line of a header that is written without annotation. *)
From Coq Require Import List NArith ZArith Bool Lia.
From Verif Require Import Py.Str Py.Res Py.Num Model.Dict Model.CommonUtils Model.NAWrite Proofs.StrLemmas Proofs.TextLemmas Proofs.WriteFrame Proofs.Delim.
Import ListNotations.

Lemma first_nl (b r p q : str) : mem_chr c_nl b = false -> b ++ nl ++ r = p ++ q -> mem_chr c_nl p = true -> exists p', p = b ++ nl ++ p' /\ r = p' ++ q.
Proof.
  revert p. induction b as [| c b IH]; intros p Nb E Mp.
  - destruct p as [| x p]; [discriminate Mp |]. injection E as <- E. exists p. auto.
  - destruct p as [| x p]; [discriminate Mp |]. injection E as <- E. rewrite mem_chr_cons in Nb, Mp. apply orb_false_iff in Nb as (N1 & N2). rewrite N1 in Mp.
    destruct (IH p N2 E Mp) as (p' & -> & ->). exists p'. auto.
Qed.

Section Last.
Context {num : Type} `{NumOps num}.
Variable o : opts num.
Hypothesis plain : o_annot o = false.
Local Notation W := (W num).

Definition last_comment (d : na num) (line : str) : Prop := exists l, attr d kNCOM = PList (l ++ [PStr line]).
Definition hdr_last (m : W unit) : Prop := forall s s' line, m s = (Ok tt, s') -> last_comment (w_na s) line ->
  exists before, w_file s' = w_file s ++ before ++ line ++ nl /\ exists t, before = t ++ nl.

Lemma last_bind {A} (m : W A) (f : A -> W unit) : hstep m -> (forall a, hdr_last (f a)) -> hdr_last (bindW m f).
Proof.
  intros Hm Hf s s' line E L. unfold bindW in E. destruct (m s) as [[a | e] s1] eqn:Em; [| discriminate].
  destruct (Hm _ _ _ Em) as (F1 & _ & K1). destruct (Hf a _ _ line E) as (b & Eb & Hb).
  - destruct L as (l & L). exists l. unfold attr in *. rewrite K1; [exact L |]. cbn. intuition discriminate.
  - exists b. rewrite <- F1. auto.
Qed.

Lemma comments_head s s' line : writeComments o s = (Ok tt, s') -> last_comment (w_na s) line ->
  exists p, w_head s' = p ++ nl ++ line ++ nl /\ mem_chr c_nl p = true.
Proof.
  intros E (l & L). unfold writeComments in E.
  assert (Mem : forall a b, mem_chr c_nl a = true -> mem_chr c_nl (a ++ b) = true).
  { intros a b M. rewrite mem_chr_app, M. reflexivity. }
  assert (Mnl : forall a b, mem_chr c_nl (a ++ b ++ nl) = true).
  { intros a b. rewrite !mem_chr_app. cbn. rewrite !orb_true_r. reflexivity. }
  unfold bindW at 1 in E. match type of E with (match ?m with _ => _ end) = _ => destruct m as [[[] | e] s1] eqn:E1; [| discriminate E] end.
  assert (M1 : mem_chr c_nl (w_head s1) = true /\ w_na s1 = w_na s).
  { clear E. unfold bindW, self, liftW in E1. destruct (fmt_d _) as [t |]; [| discriminate]. unfold hwrap, wrapLine, annotateLine, bindW, liftW, hwrite in E1. rewrite plain in E1.
    injection E1 as <-. cbn. split; [apply Mnl | reflexivity]. }
  destruct M1 as (M1 & D1). clear E1.
  unfold bindW at 1 in E. match type of E with (match ?m with _ => _ end) = _ => destruct m as [[[] | e] s2] eqn:E2; [| discriminate E] end.
  assert (M2 : mem_chr c_nl (w_head s2) = true /\ w_na s2 = w_na s).
  { clear E. unfold bindW, self_int, self_list, bindW, self, liftW in E2. destruct (as_int _); [| discriminate]. destruct (as_list _); [| discriminate]. destruct (fmt_lines _ _) as [t |]; [| discriminate].
    unfold hwraps, wrapLines, bindW, liftW, hwrite in E2. destruct (annotateLines o _ t); [| discriminate]. injection E2 as <-. cbn. split; [apply Mem, M1 | exact D1]. }
  destruct M2 as (M2 & D2). clear E2.
  unfold bindW at 1 in E. match type of E with (match ?m with _ => _ end) = _ => destruct m as [[[] | e] s3] eqn:E3; [| discriminate E] end.
  assert (M3 : exists p, w_head s3 = p ++ nl /\ mem_chr c_nl p = true /\ w_na s3 = w_na s).
  { clear E. unfold bindW, self, liftW in E3. destruct (fmt_d _) as [t |]; [| discriminate]. unfold hwrap, wrapLine, annotateLine, bindW, liftW, hwrite in E3. rewrite plain in E3.
    injection E3 as <-. cbn. exists (w_head s2 ++ t). rewrite <- app_assoc. split; [reflexivity |]. split; [apply Mem, M2 | exact D2]. }
  destruct M3 as (p & H3 & M3 & D3). clear E3.
  unfold bindW, self_int, self_list, bindW, self, liftW in E. destruct (as_int _) as [n |]; [| discriminate]. rewrite D3, L in E. cbn [as_list] in E.
  destruct (fmt_lines n _) as [t |] eqn:Et; [| discriminate].
  unfold hwraps, wrapLines, annotateLines, bindW, liftW, hwrite in E. rewrite ?plain in E.
  assert (Q : exists ss, t = concat (map (fun s => s ++ nl) ss) ++ line ++ nl).
  { unfold fmt_lines in Et. destruct (Nat.eqb _ _); [| discriminate]. rewrite mapR_app in Et. destruct (mapR fmt_s l) as [ss |]; [| discriminate]. cbn in Et. injection Et as <-. exists ss. rewrite map_app, concat_app. cbn. rewrite app_nil_r. reflexivity. }
  destruct Q as (ss & Q).
  assert (K : w_head s' = w_head s3 ++ t). { first [injection E as <-; reflexivity | rewrite plain_from in E by exact plain; injection E as <-; cbn; rewrite ?splitlines_concat; reflexivity]. }
  rewrite K, H3, Q. destruct (ends_nl_concat_map ss) as [-> | (u & ->)].
  - exists p. rewrite <- !app_assoc. auto.
  - exists (p ++ nl ++ u). rewrite <- !app_assoc. split; [reflexivity | apply Mem, M3].
Qed.

Lemma finish_last : hdr_last (finish o).
Proof.
  intros s s' line E L. unfold finish, bindW in E. destruct (writeComments o s) as [[[] | e] s1] eqn:E1; [| discriminate].
  destruct (hstep_comments _ _ _ _ E1) as (F1 & _ & K1). pose proof (whole_comments _ _ _ E1) as N1. destruct (comments_head _ _ _ E1 L) as (p & Hp & Mp).
  destruct (fixHeaderLength o s1) as [[[] | e] s2] eqn:E2; [| discriminate]. injection E as <-. unfold fixHeaderLength in E2.
  destruct (fmt_d _) as [ffi |]; [| discriminate]. unfold annotateLine in E2. rewrite plain in E2. destruct (lines (w_head s1)) as [| x rest] eqn:El; [discriminate |]. injection E2 as <-. cbn.
  destruct (lines_first _ _ _ El N1) as (b & -> & Hb & Hh & _). rewrite Hp, <- app_assoc in Hh. destruct (first_nl b (concat rest) p _ Hb (eq_sym Hh) Mp) as (p' & _ & ->).
  rewrite F1. eexists. split; [rewrite (app_assoc _ p'), (app_assoc _ nl (line ++ nl)); reflexivity |]. eexists. reflexivity.
Qed.
Ltac last_tac := repeat (first [exact finish_last | (apply last_bind; [| intros]) | apply hstep_common | apply hstep_vars | apply hstep_aux | apply hstep_self_int | apply hstep_self_list | apply hstep_self | apply hstep_lift | apply hstep_hwrite | (apply hstep_bind; [| intros])]).
Lemma last_1001 : hdr_last (writeHeader_1001 o). Proof. unfold writeHeader_1001. last_tac. Qed.
End Last.
