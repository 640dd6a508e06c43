(** Lemmas for reading configuration files, line by line. *)
From Coq Require Import List NArith ZArith Bool Lia.
From Verif Require Import Py.Str Py.Res Model.CommonUtils Model.Xarray Spec.TextSpec Model.ParseConfig Spec.ConfigSpec Proofs.StrLemmas.
Import ListNotations.

Lemma blank_all b : blank b -> all_sp b = true.
Proof. unfold blank. rewrite Forall_forall, forallb_forall. auto. Qed.
Lemma blank_nl b : blank b -> all_sp (b ++ nl) = true.
Proof. intros B. apply blank_all in B. rewrite forallb_app, B. reflexivity. Qed.
Lemma strip_head c t : is_space c = false -> exists u, strip (c :: t) = c :: u.
Proof. intros S. unfold strip, lstrip. rewrite lstrip_by_head by exact S. unfold rstrip. rewrite rstrip_cons_ns by exact S. eauto. Qed.
Lemma tidy_head c t : tidy_text (c :: t) -> is_space c = false.
Proof.
  unfold tidy_text. intros T. destruct (is_space c) eqn:S; [|reflexivity]. exfalso.
  change (c :: t) with ([c] ++ t) in T at 1. rewrite strip_sp_app in T by (cbn; rewrite S; reflexivity).
  assert (L : (length (strip t) <= length t)%nat). { destruct (strip_decomp t) as (a & b & _ & _ & Q & _). rewrite Q at 2. rewrite !app_length. lia. }
  rewrite T in L. cbn in L. lia.
Qed.
Lemma sign_not_space c : c = c_hash \/ c = c_semi -> is_space c = false.
Proof. intros [-> | ->]; reflexivity. Qed.
Lemma comment_strip l : comment_line l -> is_comment (strip (l ++ nl)) = true.
Proof.
  intros (b & c & t & -> & B & C). rewrite <- app_assoc, strip_sp_app by (apply blank_all, B). cbn [app].
  destruct (strip_head c (t ++ nl) (sign_not_space c C)) as [u ->]. cbn [is_comment]. destruct C as [-> | ->]; reflexivity.
Qed.
Lemma no_comment w : w <> [] -> tidy_text w -> ~ comment_line w -> is_comment w = false.
Proof.
  intros N T C. destruct w as [|c t]; [congruence|]. cbn [is_comment].
  assert (K : forall x, c = x -> x = c_hash \/ x = c_semi -> False).
  { intros x -> H. apply C. exists [], x, t. split; [reflexivity|]. split; [apply Forall_nil|exact H]. }
  apply orb_false_iff. split; apply N.eqb_neq; intros Q; apply (K _ Q); auto.
Qed.
Lemma indent_app b w : blank b -> w <> [] -> tidy_text w -> forall t, indent_of (b ++ w ++ t) = length b.
Proof.
  intros B N T t. destruct w as [|c w]; [congruence|]. unfold indent_of, lstrip. rewrite lstrip_by_app by (apply blank_all, B).
  cbn [app]. rewrite lstrip_by_head by (eapply tidy_head, T). rewrite app_length. cbn [length]. lia.
Qed.

(** ** The lists of sections *)
Lemma str_eqb_same s : str_eqb s s = true. Proof. now apply str_eqb_eq. Qed.
Lemma str_eqb_diff a b : a <> b -> str_eqb a b = false.
Proof. intros N. destruct (str_eqb a b) eqn:E; [|reflexivity]. apply str_eqb_eq in E. contradiction. Qed.
Lemma lookup_none {A} k (l : list (str * A)) : ~ In k (map fst l) -> lookup k l = None.
Proof.
  induction l as [|[a b] l IH]; cbn; intros N; [reflexivity|]. rewrite str_eqb_diff by (intros ->; apply N; auto). apply IH. auto.
Qed.
Lemma lookup_last {A} k (v : A) l : ~ In k (map fst l) -> lookup k (l ++ [(k, v)]) = Some v.
Proof.
  induction l as [|[a b] l IH]; cbn; intros N; [now rewrite str_eqb_same|]. rewrite str_eqb_diff by (intros ->; apply N; auto). apply IH. auto.
Qed.
Lemma append_last done n os o vs l : ~ In n (map fst done) -> ~ In o (map fst os) ->
  append_line (done ++ [(n, os ++ [(o, vs)])]) n o l = done ++ [(n, os ++ [(o, vs ++ [l])])].
Proof.
  intros N O. induction done as [|[a b] done IH]; cbn [app append_line].
  - rewrite str_eqb_same, map_app. cbn [map fst snd]. rewrite str_eqb_same. do 3 f_equal.
    clear - O. induction os as [|[a b] os IH]; cbn; [reflexivity|]. rewrite str_eqb_diff by (intros ->; apply O; left; reflexivity). f_equal. apply IH. intros Q. apply O. right. exact Q.
  - rewrite str_eqb_diff by (intros ->; apply N; left; reflexivity). f_equal. apply IH. intros Q. apply N. right. exact Q.
Qed.
Lemma new_last done n os o v : ~ In n (map fst done) -> new_option (done ++ [(n, os)]) n o v = done ++ [(n, os ++ [(o, [v])])].
Proof.
  intros N. induction done as [|[a b] done IH]; cbn [app new_option].
  - now rewrite str_eqb_same.
  - rewrite str_eqb_diff by (intros ->; apply N; left; reflexivity). f_equal. apply IH. intros Q. apply N. right. exact Q.
Qed.

(** ** The lines *)
Definition with_nl (l : str) : str := l ++ nl.
Definition no_option (o : option str) : Prop := o = None.
Lemma remark_skipped ss sec l : remark l -> read_ini_line (mkReading ss sec None 0 false) (with_nl l) = Got (mkReading ss sec None 0 false).
Proof.
  unfold with_nl, read_ini_line. intros [C | B]; cbn [r_sections r_section r_option r_indent r_error].
  - rewrite comment_strip by exact C. reflexivity.
  - rewrite strip_all_sp by (apply blank_nl, B). destruct sec; reflexivity.
Qed.
Lemma remarks_skipped ss sec rs rest : Forall remark rs ->
  read_ini_lines (mkReading ss sec None 0 false) (map with_nl rs ++ rest) = read_ini_lines (mkReading ss sec None 0 false) rest.
Proof. induction 1 as [|l rs R F IH]; [reflexivity|]. cbn [map app read_ini_lines]. rewrite remark_skipped by exact R. exact IH. Qed.
Lemma more_read done n os o ls vs : more_lines ls vs -> ~ In n (map fst done) -> ~ In o (map fst os) -> o <> [] -> forall ws rest,
  read_ini_lines (mkReading (done ++ [(n, os ++ [(o, ws)])]) (Some n) (Some o) 0 false) (map with_nl ls ++ rest) =
  read_ini_lines (mkReading (done ++ [(n, os ++ [(o, ws ++ vs)])]) (Some n) (Some o) 0 false) rest.
Proof.
  intros M Nn No Oo. destruct o as [|o0 o']; [congruence|]. induction M as [|l ls vs C M IH|l ls vs B M IH|b w b' ls vs Nb B Nw T C B' M IH]; intros ws rest; cbn [map app read_ini_lines].
  - now rewrite app_nil_r.
  - unfold with_nl at 1, read_ini_line. cbn [r_sections r_section r_option r_indent r_error]. rewrite comment_strip by exact C. cbn [bindI]. apply IH.
  - unfold with_nl at 1, read_ini_line. cbn [r_sections r_section r_option r_indent r_error]. rewrite strip_all_sp by (apply blank_nl, B). cbn [is_comment is_nil bindI].
    rewrite append_last by assumption. rewrite IH, <- app_assoc. reflexivity.
  - unfold with_nl at 1, read_ini_line. cbn [r_sections r_section r_option r_indent r_error].
    rewrite <- !app_assoc, strip_sp_app by (apply blank_all, B). rewrite strip_app_sp by (apply blank_nl, B'). rewrite T.
    rewrite no_comment by assumption. destruct w as [|w0 w']; [congruence|]. cbn [is_nil]. rewrite indent_app by assumption.
    destruct b as [|b0 b'']; [congruence|]. cbn [length]. change (0 <? S _)%nat with true. cbn iota. cbn [bindI].
    rewrite append_last by assumption. rewrite IH, <- app_assoc. reflexivity.
Qed.
(** An option line is no section header, and is cut at the sign. *)
Lemma cut_at n b c rest : ~ In c_eq n -> ~ In c_colon n -> blank b -> (c = c_eq \/ c = c_colon) -> cut_option (n ++ b ++ c :: rest) = Some (n ++ b, rest).
Proof.
  intros E C B S. assert (F : forall x, In x (n ++ b) -> x <> c_eq /\ x <> c_colon).
  { intros x I. apply in_app_or in I as [I|I]; [split; intros ->; contradiction|]. unfold blank in B. rewrite Forall_forall in B. specialize (B x I). split; intros ->; discriminate B. }
  rewrite app_assoc. generalize dependent (n ++ b). intros s F. induction s as [|x s IH]; cbn [app cut_option].
  - destruct S as [-> | ->]; reflexivity.
  - destruct (F x) as (F1 & F2); [left; reflexivity|]. apply N.eqb_neq in F1, F2. rewrite F1, F2. cbn [orb]. rewrite IH by (intros y I; apply F; right; exact I). reflexivity.
Qed.
Lemma option_read done n os o v ls : option_text (o, v) ls -> ~ In n (map fst done) -> ~ In o (map fst os) -> forall opt rest,
  exists w vs, v = rstrip (join nl (w :: vs)) /\
  read_ini_lines (mkReading (done ++ [(n, os)]) (Some n) opt 0 false) (map with_nl ls ++ rest) =
  read_ini_lines (mkReading (done ++ [(n, os ++ [(o, w :: vs)])]) (Some n) (Some o) 0 false) rest.
Proof.
  intros T Nn No opt rest. inversion T as [n' b1 c b2 w b3 ls' vs (To & E & C & o0 & o' & Eo & D1 & D2 & D3) B1 S B2 Tw B3 M]; subst.
  exists w, vs. split; [reflexivity|]. cbn [map app read_ini_lines].
  assert (So := tidy_head _ _ To).
  assert (V : strip (with_nl (o0 :: o' ++ b1 ++ c :: b2 ++ w ++ b3)) = o0 :: o' ++ b1 ++ c :: rstrip (b2 ++ w ++ b3)).
  { unfold with_nl. rewrite strip_app_sp by reflexivity. unfold strip, lstrip. cbn [app]. rewrite lstrip_by_head by exact So. unfold rstrip.
    rewrite rstrip_cons_ns by exact So. f_equal.
    assert (Sc : is_space c = false) by (destruct S as [-> | ->]; reflexivity).
    generalize (b2 ++ w ++ b3). intros r. rewrite app_assoc. change (c :: r) with ([c] ++ r). rewrite !app_assoc.
    destruct (rstrip_by_decomp is_space r) as (z & Hz & Hr & _). rewrite Hr at 1. rewrite !app_assoc. rewrite rstrip_by_app by exact Hz.
    destruct (rstrip_by is_space r) as [|r0 rr] eqn:Er.
    - rewrite app_nil_r. rewrite rstrip_by_last by exact Sc. rewrite <- !app_assoc. reflexivity.
    - assert (exists q l, r0 :: rr = q ++ [l]) as (q & l & Q) by (destruct (@exists_last _ (r0 :: rr)) as (q & l & Q); [discriminate|]; eauto).
      rewrite Q. rewrite app_assoc, rstrip_by_last; [rewrite <- !app_assoc; reflexivity|].
      assert (Id : rstrip_by is_space (q ++ [l]) = q ++ [l]) by (rewrite <- Q, <- Er; apply rstrip_by_idem).
      destruct (is_space l) eqn:Sl; [|reflexivity]. exfalso. rewrite rstrip_by_app in Id by (cbn; now rewrite Sl).
      destruct (rstrip_by_decomp is_space q) as (z2 & _ & Hq & _). apply (f_equal (@length _)) in Id. rewrite app_length in Id. apply (f_equal (@length _)) in Hq. rewrite app_length in Hq. cbn in Id. lia. }
  unfold read_ini_line. cbn [r_sections r_section r_option r_indent r_error]. rewrite V.
  assert (Ic : is_comment (o0 :: o' ++ b1 ++ c :: rstrip (b2 ++ w ++ b3)) = false).
  { cbn [app is_comment]. apply orb_false_iff. split; apply N.eqb_neq; congruence. }
  rewrite Ic. cbn [is_nil app].
  assert (Id : indent_of (with_nl (o0 :: o' ++ b1 ++ c :: b2 ++ w ++ b3)) = 0%nat).
  { unfold indent_of, with_nl, lstrip. cbn [app]. rewrite lstrip_by_head by exact So. lia. }
  rewrite Id.
  assert (K : forall p : option (str * str), (match p with Some p => if (0 <? 0)%nat then Some p else None | None => None end) = None) by (intros [p|]; reflexivity).
  rewrite K. clear K. cbn [section_header]. apply N.eqb_neq in D1. rewrite D1. unfold option_line.
  change (o0 :: o' ++ b1 ++ c :: rstrip (b2 ++ w ++ b3)) with ((o0 :: o') ++ b1 ++ c :: rstrip (b2 ++ w ++ b3)).
  rewrite cut_at by assumption. cbn iota beta.
  replace (rstrip ((o0 :: o') ++ b1)) with (o0 :: o').
  2:{ unfold rstrip. rewrite rstrip_by_app by (apply blank_all, B1). unfold tidy_text, strip, lstrip in To. rewrite lstrip_by_head in To by exact So. symmetry. exact To. }
  replace (strip (rstrip (b2 ++ w ++ b3))) with w.
  2:{ unfold strip at 1. destruct (rstrip_by_decomp is_space (b2 ++ w ++ b3)) as (z & Hz & Hr & _). change (rstrip_by is_space) with rstrip in Hr.
      assert (Q : strip (b2 ++ w ++ b3) = strip (rstrip (b2 ++ w ++ b3))) by (rewrite Hr at 1; apply strip_app_sp, Hz).
      change (rstrip (lstrip ?x)) with (strip x). rewrite <- Q. rewrite strip_surround by (apply blank_all; assumption). symmetry. exact Tw. }
  rewrite lookup_last by exact Nn. rewrite lookup_none by exact No. cbn [is_nil orb bindI]. rewrite new_last by exact Nn.
  exact (more_read done n os (o0 :: o') ls' vs M Nn No ltac:(discriminate) [w] rest).
Qed.
Lemma last_rbrack_none b : blank b -> last_rbrack b = None.
Proof.
  induction 1 as [|c b S F IH]; [reflexivity|]. cbn [last_rbrack]. rewrite IH. destruct (N.eqb_spec c c_rbrack) as [->|]; [discriminate S|reflexivity].
Qed.
Lemma header_found n : n <> [] -> section_header (c_lbrack :: n ++ [c_rbrack]) = Some n.
Proof.
  intros N. assert (L : last_rbrack (n ++ [c_rbrack]) = Some n). { clear N. induction n as [|c n IH]; [reflexivity|]. cbn [app last_rbrack]. now rewrite IH. }
  cbn [section_header]. rewrite N.eqb_refl, L. destruct n; [congruence|reflexivity].
Qed.
Lemma section_read done n options ls : section_text (n, options) ls -> ~ In n (map fst done) -> forall sec opt rest,
  exists os opt', joined os = options /\
  read_ini_lines (mkReading done sec opt 0 false) (map with_nl ls ++ rest) = read_ini_lines (mkReading (done ++ [(n, os)]) (Some n) opt' 0 false) rest.
Proof.
  intros T Nn sec opt rest. inversion T as [n' b rs op os' Nz Nd B R F ND]; subst.
  cbn [map app read_ini_lines].
  assert (V : strip (with_nl (c_lbrack :: n ++ c_rbrack :: b)) = c_lbrack :: n ++ [c_rbrack]).
  { unfold with_nl. rewrite strip_app_sp by reflexivity. change (c_lbrack :: n ++ c_rbrack :: b) with ((c_lbrack :: n) ++ [c_rbrack] ++ b). rewrite app_assoc.
    rewrite strip_app_sp by (apply blank_all, B). unfold strip, lstrip. cbn [app]. rewrite lstrip_by_head by reflexivity. unfold rstrip.
    change (c_lbrack :: n ++ [c_rbrack]) with ((c_lbrack :: n) ++ [c_rbrack]). now rewrite rstrip_by_last by reflexivity. }
  unfold read_ini_line. cbn [r_sections r_section r_option r_indent r_error]. rewrite V. cbn [is_comment is_nil].
  change ((c_lbrack =? c_hash) || (c_lbrack =? c_semi))%N with false. cbn iota.
  assert (Id : indent_of (with_nl (c_lbrack :: n ++ c_rbrack :: b)) = 0%nat) by (unfold indent_of, with_nl, lstrip; cbn [app]; rewrite lstrip_by_head by reflexivity; lia).
  rewrite Id.
  assert (K : forall p : option (str * str), (match p with Some p => if (0 <? 0)%nat then Some p else None | None => None end) = None) by (intros [p|]; reflexivity).
  rewrite K. clear K. rewrite header_found by exact Nz. rewrite lookup_none by exact Nn. cbn [bindI].
  rewrite map_app, <- app_assoc, remarks_skipped by exact R.
  clear R V Id. cut (forall prev o0, (forall x, In x (map fst prev) -> ~ In x (map fst options)) -> NoDup (map fst options) ->
    exists os opt', joined os = options /\ read_ini_lines (mkReading (done ++ [(n, prev)]) (Some n) o0 0 false) (map with_nl (concat os') ++ rest) =
      read_ini_lines (mkReading (done ++ [(n, prev ++ os)]) (Some n) opt' 0 false) rest).
  { intros H. destruct (H [] None) as (os & opt' & J & Q); [intros x []|exact ND|]. exists os, opt'. auto. }
  clear ND T. induction F as [|[o v] ls' options' os' To F IH]; intros prev o0 Dj ND; cbn [concat].
  - exists [], o0. rewrite app_nil_r. auto.
  - cbn [map fst] in Dj, ND. inversion ND as [|? ? Ni ND']; subst. rewrite map_app, <- app_assoc.
    assert (No : ~ In o (map fst prev)) by (intros Q; apply (Dj _ Q); left; reflexivity).
    destruct (option_read done n prev o v ls' To Nn No o0 (map with_nl (concat os') ++ rest)) as (w & vs & -> & ->).
    destruct (IH (prev ++ [(o, w :: vs)]) (Some o)) as (os & opt' & J & Q).
    + intros x I. rewrite map_app in I. apply in_app_or in I as [I|[<-|[]]]; [intros K; apply (Dj _ I); right; exact K|exact Ni].
    + exact ND'.
    + exists ((o, w :: vs) :: os), opt'. split; [cbn [joined map fst snd]; f_equal; exact J|]. rewrite Q, <- app_assoc. reflexivity.
Qed.
Lemma config_read conf ls : config_text conf ls -> proper_lines ls -> read_ini (unlines ls) = Got conf.
Proof.
  intros T P. unfold read_ini. assert (R : readlines (unlines ls) = map with_nl ls).
  { unfold readlines. rewrite univ_newlines_id.
    - rewrite lines_unlines; [reflexivity|]. apply Forall_forall. intros l I. apply mem_chr_false. apply P, I.
    - apply mem_chr_false. intros Q. unfold unlines in Q. apply in_concat in Q as (x & I & J). apply in_map_iff in I as (l & <- & I). apply in_app_or in J as [J|[J|[]]]; [|discriminate J].
      destruct (P l I) as (_ & K). contradiction. }
  rewrite R. clear R P. inversion T as [c rs ss R F ND]; subst. rewrite map_app.
  rewrite remarks_skipped by exact R.
  cut (forall done sec opt, (forall x, In x (map fst done) -> ~ In x (map fst conf)) -> NoDup (map fst conf) -> exists os sec' opt',
    map (fun p => (fst p, joined (snd p))) os = conf /\
    read_ini_lines (mkReading done sec opt 0 false) (map with_nl (concat ss)) = Got (mkReading (done ++ os) sec' opt' 0 false)).
  { intros H. destruct (H [] None None) as (os & sec' & opt' & J & ->); [intros x []|exact ND|]. cbn [bindI r_error r_sections app]. now rewrite J. }
  clear T R ND. induction F as [|[n options] ls' conf' ss' Ts F IH]; intros done sec opt Dj ND; cbn [concat].
  - exists [], sec, opt. rewrite app_nil_r. auto.
  - cbn [map fst] in Dj, ND. inversion ND as [|? ? Ni ND']; subst. rewrite map_app.
    assert (No : ~ In n (map fst done)) by (intros Q; apply (Dj _ Q); left; reflexivity).
    destruct (section_read done n options ls' Ts No sec opt (map with_nl (concat ss'))) as (os & opt' & J & ->).
    destruct (IH (done ++ [(n, os)]) (Some n) opt') as (os2 & s2 & o2 & J2 & ->).
    + intros x I. rewrite map_app in I. apply in_app_or in I as [I|[<-|[]]]; [intros K; apply (Dj _ I); right; exact K|exact Ni].
    + exact ND'.
    + exists ((n, os) :: os2), s2, o2. split; [cbn [map fst snd]; rewrite J, J2; reflexivity|]. rewrite <- app_assoc. reflexivity.
Qed.
