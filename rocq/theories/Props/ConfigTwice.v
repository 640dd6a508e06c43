(** C94: a section or an option that is given twice. *)
From Coq Require Import List NArith ZArith Bool Lia.
From Verif Require Import Py.Str Py.Res Py.Num Model.CommonUtils Model.Xarray Model.ToXarray Spec.TextSpec Model.ParseConfig Spec.ConfigSpec Proofs.StrLemmas Proofs.ConfigLemmas
  Props.ConfigProps.
Import ListNotations.

Definition opened (n b : str) : str := [c_lbrack] ++ n ++ [c_rbrack] ++ b.
Lemma read_app r a b : read_ini_lines r (a ++ b) = bindI (read_ini_lines r a) (fun r => read_ini_lines r b).
Proof. revert r. induction a as [| l a IH]; intros r; [reflexivity |]. cbn [app read_ini_lines]. destruct (read_ini_line r l); [apply IH | reflexivity]. Qed.
Lemma config_state conf ls rest : config_text conf ls -> exists os sec opt,
  map (fun p => (fst p, joined (snd p))) os = conf /\ (forall c0 p, conf = c0 ++ [p] -> sec = Some (fst p)) /\
  read_ini_lines (mkReading [] None None 0 false) (map with_nl ls ++ rest) = read_ini_lines (mkReading os sec opt 0 false) rest.
Proof.
  intros T. inversion T as [c rs ss R F ND]; subst. rewrite map_app, <- app_assoc. rewrite remarks_skipped by exact R.
  cut (forall done sec opt, (forall x, In x (map fst done) -> ~ In x (map fst conf)) -> NoDup (map fst conf) -> exists os sec' opt',
    map (fun p => (fst p, joined (snd p))) os = conf /\ (conf = [] -> sec' = sec) /\ (forall c0 p, conf = c0 ++ [p] -> sec' = Some (fst p)) /\
    read_ini_lines (mkReading done sec opt 0 false) (map with_nl (concat ss) ++ rest) = read_ini_lines (mkReading (done ++ os) sec' opt' 0 false) rest).
  { intros H. destruct (H [] None None) as (os & sec' & opt' & J & _ & L & Q); [intros x [] | exact ND |]. exists os, sec', opt'. auto. }
  clear T R ND. induction F as [|[n options] ls' conf' ss' Ts F IH]; intros done sec opt Dj ND; cbn [concat].
  - exists [], sec, opt. rewrite app_nil_r. split; [reflexivity |]. split; [auto |]. split; [intros c0 p Q; destruct c0; discriminate Q | reflexivity].
  - cbn [map fst] in Dj, ND. inversion ND as [|? ? Ni ND']; subst. rewrite map_app, <- app_assoc.
    assert (No : ~ In n (map fst done)) by (intros Q; apply (Dj _ Q); left; reflexivity).
    destruct (section_read done n options ls' Ts No sec opt (map with_nl (concat ss') ++ rest)) as (os & opt' & J & ->).
    destruct (IH (done ++ [(n, os)]) (Some n) opt') as (os2 & s2 & o2 & J2 & L0 & L & ->).
    + intros x I. rewrite map_app in I. apply in_app_or in I as [I|[<-|[]]]; [intros K; apply (Dj _ I); right; exact K|exact Ni].
    + exact ND'.
    + exists ((n, os) :: os2), s2, o2. split; [cbn [map fst snd]; rewrite J, J2; reflexivity|]. split; [discriminate |]. split; [| rewrite <- app_assoc; reflexivity].
      intros c0 p Q. destruct c0 as [| q c0]; cbn [app] in Q.
      * injection Q as <- Q. rewrite (L0 Q). reflexivity.
      * injection Q as _ Q. exact (L c0 p Q).
Qed.
Lemma proper_read ls : proper_lines ls -> readlines (unlines ls) = map with_nl ls.
Proof.
  intros P. unfold readlines. rewrite univ_newlines_id.
  - rewrite lines_unlines; [reflexivity|]. apply Forall_forall. intros l I. apply mem_chr_false. apply P, I.
  - apply mem_chr_false. intros Q. unfold unlines in Q. apply in_concat in Q as (x & I & J). apply in_map_iff in I as (l & <- & I). apply in_app_or in J as [J|[J|[]]]; [|discriminate J].
    destruct (P l I) as (_ & K). contradiction.
Qed.
(** The name of a section for the second time: the file is refused, whatever
    follows. *)
Theorem C94_section_twice : forall conf ls n b rest, config_text conf ls -> In n (map fst conf) -> blank b ->
  proper_lines (ls ++ opened n b :: rest) -> makeConfigDict (Some (unlines (ls ++ opened n b :: rest))) = Bad DuplicateSection.
Proof.
  intros conf ls n b rest T I B P. unfold makeConfigDict, read_conf, read_ini. rewrite (proper_read _ P), map_app. cbn [map].
  destruct (config_state conf ls (with_nl (opened n b) :: map with_nl rest) T) as (os & sec & opt & J & _ & ->).
  assert (Dn : n <> default_section /\ n <> []).
  { split; [intros ->; exact (proj1 (proj2 (config_facts _ _ T)) I) |]. inversion T as [c rs ss R F ND]; subst. clear -I F.
    induction F as [| p s conf ss S F IH]; [destruct I |]. inversion S; subst. destruct I as [<- | I]; [assumption | exact (IH I)]. }
  destruct Dn as [Dn Nz]. cbn [read_ini_lines]. unfold opened. cbn [app].
  assert (V : strip (with_nl (c_lbrack :: n ++ c_rbrack :: b)) = c_lbrack :: n ++ [c_rbrack]).
  { unfold with_nl. rewrite strip_app_sp by reflexivity. change (c_lbrack :: n ++ c_rbrack :: b) with ((c_lbrack :: n) ++ [c_rbrack] ++ b). rewrite app_assoc.
    rewrite strip_app_sp by (apply blank_all, B). unfold strip, lstrip. cbn [app]. rewrite lstrip_by_head by reflexivity. unfold rstrip.
    change (c_lbrack :: n ++ [c_rbrack]) with ((c_lbrack :: n) ++ [c_rbrack]). now rewrite rstrip_by_last by reflexivity. }
  unfold read_ini_line at 1. cbn [r_sections r_section r_option r_indent r_error]. rewrite V. cbn [is_comment is_nil].
  change ((c_lbrack =? c_hash) || (c_lbrack =? c_semi))%N with false. cbn iota.
  assert (Id : indent_of (with_nl (c_lbrack :: n ++ c_rbrack :: b)) = 0%nat) by (unfold indent_of, with_nl, lstrip; cbn [app]; rewrite lstrip_by_head by reflexivity; lia).
  rewrite Id.
  assert (K : forall p : option (str * str), (match p with Some p => if (0 <? 0)%nat then Some p else None | None => None end) = None) by (intros [p|]; reflexivity).
  rewrite K. clear K. rewrite header_found by exact Nz.
  destruct (lookup n os) as [x |] eqn:L.
  - rewrite str_eqb_diff by exact Dn. reflexivity.
  - exfalso. rewrite <- J, map_map in I. cbn [fst] in I. clear -I L. induction os as [| [k v] os IH]; [destruct I |]. cbn [lookup map fst] in *.
    destruct (str_eqb n k) eqn:Q; [discriminate L |]. destruct I as [-> | I]; [rewrite str_eqb_same in Q; discriminate Q | exact (IH I L)].
Qed.
Print Assumptions C94_section_twice.
(** An option of the last section for the second time, with any value. *)
Theorem C94_option_twice : forall conf n options ls o v os rest, config_text (conf ++ [(n, options)]) ls -> In o (map fst options) -> option_text (o, v) os ->
  proper_lines (ls ++ os ++ rest) -> makeConfigDict (Some (unlines (ls ++ os ++ rest))) = Bad DuplicateOption.
Proof.
  intros conf n options ls o v os rest Tc I T P. unfold makeConfigDict, read_conf, read_ini. rewrite (proper_read _ P), map_app.
  destruct (config_state _ ls (map with_nl (os ++ rest)) Tc) as (ss & sec & opt & J & L & ->). specialize (L conf (n, options) eq_refl). subst sec. cbn [fst].
  inversion T as [n' b1 c b2 w b3 ls' vs (To & E & C & o0 & o' & Eo & D1 & D2 & D3) B1 S B2 Tw B3 M]; subst. cbn [map app read_ini_lines].
  assert (So := tidy_head _ _ To).
  assert (V : strip (with_nl (o0 :: o' ++ b1 ++ c :: b2 ++ w ++ b3)) = o0 :: o' ++ b1 ++ c :: rstrip (b2 ++ w ++ b3)).
  { unfold with_nl. rewrite strip_app_sp by reflexivity. unfold strip, lstrip. cbn [app]. rewrite lstrip_by_head by exact So. unfold rstrip.
    rewrite rstrip_cons_ns by exact So. f_equal.
    assert (Sc : is_space c = false) by (destruct S as [-> | ->]; reflexivity).
    generalize (b2 ++ w ++ b3). intros r. rewrite app_assoc. change (c :: r) with ([c] ++ r). rewrite !app_assoc.
    destruct (rstrip_by_decomp is_space r) as (z & Hz & Hr & _). rewrite Hr at 1. rewrite !app_assoc. rewrite rstrip_by_app by exact Hz.
    destruct (rstrip_by is_space r) as [|r0 rr] eqn:Er.
    - rewrite app_nil_r. rewrite rstrip_by_last by exact Sc. rewrite <- !app_assoc. reflexivity.
    - assert (exists q l, r0 :: rr = q ++ [l]) as (q & l & Q) by (destruct (@exists_last _ (r0 :: rr)) as (q & l & Q); [discriminate|]; eauto).
      rewrite Q. rewrite app_assoc, rstrip_by_last; [rewrite <- !app_assoc; reflexivity|].
      assert (Id : rstrip_by is_space (q ++ [l]) = q ++ [l]) by (rewrite <- Q, <- Er; apply rstrip_by_idem).
      destruct (is_space l) eqn:Sl; [|reflexivity]. exfalso. rewrite rstrip_by_app in Id by (cbn; now rewrite Sl).
      destruct (rstrip_by_decomp is_space q) as (z2 & _ & Hq & _). apply (f_equal (@length _)) in Id. rewrite app_length in Id. apply (f_equal (@length _)) in Hq. rewrite app_length in Hq. cbn in Id. lia. }
  unfold read_ini_line. cbn [r_sections r_section r_option r_indent r_error]. rewrite V.
  assert (Ic : is_comment (o0 :: o' ++ b1 ++ c :: rstrip (b2 ++ w ++ b3)) = false).
  { cbn [app is_comment]. apply orb_false_iff. split; apply N.eqb_neq; congruence. }
  rewrite Ic. cbn [is_nil app].
  assert (Id : indent_of (with_nl (o0 :: o' ++ b1 ++ c :: b2 ++ w ++ b3)) = 0%nat).
  { unfold indent_of, with_nl, lstrip. cbn [app]. rewrite lstrip_by_head by exact So. lia. }
  rewrite Id.
  assert (K : forall p : option (str * str), (match p with Some p => if (0 <? 0)%nat then Some p else None | None => None end) = None) by (intros [p|]; reflexivity).
  rewrite K. clear K. cbn [section_header]. apply N.eqb_neq in D1. rewrite D1. unfold option_line.
  change (o0 :: o' ++ b1 ++ c :: rstrip (b2 ++ w ++ b3)) with ((o0 :: o') ++ b1 ++ c :: rstrip (b2 ++ w ++ b3)).
  rewrite cut_at by assumption. cbn iota beta.
  replace (rstrip ((o0 :: o') ++ b1)) with (o0 :: o').
  2:{ unfold rstrip. rewrite rstrip_by_app by (apply blank_all, B1). unfold tidy_text, strip, lstrip in To. rewrite lstrip_by_head in To by exact So. symmetry. exact To. }
  replace (strip (rstrip (b2 ++ w ++ b3))) with w.
  2:{ unfold strip at 1. destruct (rstrip_by_decomp is_space (b2 ++ w ++ b3)) as (z & Hz & Hr & _). change (rstrip_by is_space) with rstrip in Hr.
      assert (Q : strip (b2 ++ w ++ b3) = strip (rstrip (b2 ++ w ++ b3))) by (rewrite Hr at 1; apply strip_app_sp, Hz).
      change (rstrip (lstrip ?x)) with (strip x). rewrite <- Q. rewrite strip_surround by (apply blank_all; assumption). symmetry. exact Tw. }
  assert (Lk : exists l x, lookup n ss = Some l /\ lookup (o0 :: o') l = Some x).
  { destruct (config_facts _ _ Tc) as (ND & _ & _). assert (In1 : In (n, options) (conf ++ [(n, options)])) by (apply in_or_app; right; left; reflexivity).
    rewrite <- J in ND, In1. clear -I ND In1. induction ss as [| [k l] ss IH]; [destruct In1 |]. cbn [map fst snd lookup] in *. inversion ND as [| ? ? N1 N2]; subst.
    destruct In1 as [Q | In1].
    - injection Q as -> <-. rewrite str_eqb_same. exists l. unfold joined in I. rewrite map_map in I. cbn [fst] in I.
      enough (Q : exists x, lookup (o0 :: o') l = Some x) by (destruct Q as [x Q]; exists x; auto). clear -I. induction l as [| [a y] l IH]; [destruct I |]. cbn [lookup map fst] in *. destruct (str_eqb (o0 :: o') a) eqn:Q; [eauto |].
      destruct I as [-> | I]; [rewrite str_eqb_same in Q; discriminate Q |]. exact (IH I).
    - destruct (str_eqb n k) eqn:Q; [| exact (IH N2 In1)]. apply str_eqb_eq in Q as ->. exfalso. apply N1. apply (in_map fst) in In1. exact In1. }
  destruct Lk as (l & x & L1 & L2). rewrite L1, L2. reflexivity.
Qed.
Print Assumptions C94_option_twice.
(** Both for small documents: the section main again after the section empty, and
    the option c again, written otherwise. *)
Definition small_options : list (str * (str * str)) := [(lit "a", (lit "1", [])); (lit "c", (lit "2", lit " "))].
Definition small_section : list str := ([c_lbrack] ++ lit "main" ++ [c_rbrack]) :: map simple_line small_options.
Example C94_twice_example :
  (In (lit "main") [lit "main"; lit "empty"] /\ blank (lit " ") /\ makeConfigDict (Some (unlines (small_document ++ opened (lit "main") (lit " ") :: [lit "d = 1"]))) = Bad DuplicateSection) /\
  config_text ([] ++ [(lit "main", [(lit "a", lit "1"); (lit "c", lit "2")])]) small_section /\ option_text (lit "c", lit "3") [lit "c = 3"] /\
  makeConfigDict (Some (unlines (small_section ++ [lit "c = 3"] ++ [lit "d = 4"]))) = Bad DuplicateOption /\
  makeConfigDict (Some (unlines (small_section ++ [lit "C = 3"] ++ [lit "d = 4"]))) =
    Got [(lit "main", [(One (lit "a"), One (lit "1")); (One (lit "c"), One (lit "2")); (One (lit "C"), One (lit "3")); (One (lit "d"), One (lit "4"))])].
Proof.
  split; [| split; [| split; [| split]]].
  - split; [left; reflexivity |]. split; [repeat constructor |]. apply (C94_section_twice _ _ _ _ _ (proj1 C94_conditions)).
    + left. reflexivity.
    + repeat constructor.
    + assert (Q : forallb (fun l => negb (mem_chr c_nl l) && negb (mem_chr c_cr l)) (small_document ++ opened (lit "main") (lit " ") :: [lit "d = 1"]) = true) by (vm_compute; reflexivity).
      intros l I. rewrite forallb_forall in Q. specialize (Q _ I). apply andb_prop in Q as [Q1 Q2].
      split; apply mem_chr_false; [now destruct (mem_chr c_nl l)|now destruct (mem_chr c_cr l)].
  - replace small_section with ([] ++ concat [small_section]) by (cbn [app concat]; apply app_nil_r). apply config_lines; [constructor| |repeat constructor; intros []].
    constructor; [|constructor]. apply (simple_section (lit "main") small_options); [discriminate|intros Q; vm_compute in Q; discriminate Q|vm_compute; reflexivity|].
    constructor; [intros [Q | []]; vm_compute in Q; discriminate Q | constructor; [intros [] | constructor]].
  - apply (simple_option (lit "c", (lit "3", []))). vm_compute. reflexivity.
  - vm_compute. reflexivity.
  - vm_compute. reflexivity.
Qed.

(** Anything but remarks before the first section is refused, whatever follows. *)
Theorem C94_no_section : forall rs b c t rest, Forall remark rs -> blank b -> is_space c = false -> c <> c_lbrack -> c <> c_hash -> c <> c_semi ->
  proper_lines (rs ++ (b ++ c :: t) :: rest) -> makeConfigDict (Some (unlines (rs ++ (b ++ c :: t) :: rest))) = Bad MissingSectionHeader.
Proof.
  intros rs b c t rest R B S N1 N2 N3 P. unfold makeConfigDict, read_conf, read_ini. rewrite (proper_read _ P), map_app. rewrite remarks_skipped by exact R.
  cbn [map read_ini_lines]. unfold read_ini_line at 1. cbn [r_sections r_section r_option r_indent r_error].
  assert (V : exists t', strip (with_nl (b ++ c :: t)) = c :: t').
  { unfold with_nl. rewrite strip_app_sp by reflexivity. unfold strip, lstrip.
    assert (L : lstrip_by is_space (b ++ c :: t) = c :: t).
    { clear -B S. induction b as [| x b IH]; cbn [app]; [apply lstrip_by_head, S |]. inversion B; subst. cbn [lstrip_by]. rewrite H1. apply IH. assumption. }
    rewrite L. unfold rstrip. rewrite rstrip_cons_ns by exact S. eexists. reflexivity. }
  destruct V as (t' & V). rewrite V. cbn [is_comment is_nil].
  rewrite (proj2 (N.eqb_neq _ _) N2), (proj2 (N.eqb_neq _ _) N3). cbn [orb].
  assert (Hd : section_header (c :: t') = None). { unfold section_header. rewrite (proj2 (N.eqb_neq _ _) N1). reflexivity. }
  rewrite Hd. reflexivity.
Qed.
Print Assumptions C94_no_section.

(** So is a line without a sign between name and value, wherever it stands without
    indentation: at the end of the file with ParsingError, before other lines with
    that or another exception. *)
Lemma error_stays ls : forall r r', read_ini_lines r ls = Got r' -> r_error r = true -> r_error r' = true.
Proof.
  induction ls as [| l ls IH]; intros r r' Q Er; cbn [read_ini_lines] in Q; [injection Q as <-; exact Er |].
  destruct (read_ini_line r l) as [r1 |] eqn:E; cbn [bindI] in Q; [| discriminate Q]. apply (IH _ _ Q). clear Q IH. unfold read_ini_line in E.
  repeat match type of E with
         | context [match ?x with _ => _ end] => destruct x; try discriminate E
         end; injection E as <-; cbn [r_error]; rewrite ?Er; reflexivity.
Qed.
Lemma no_cut s : ~ In c_eq s -> ~ In c_colon s -> cut_option s = None.
Proof.
  induction s as [| c s IH]; intros A B; [reflexivity |]. cbn [cut_option]. rewrite IH; [| intros I; apply A; right; exact I | intros I; apply B; right; exact I].
  rewrite (proj2 (N.eqb_neq c c_eq)) by (intros ->; apply A; left; reflexivity). rewrite (proj2 (N.eqb_neq c c_colon)) by (intros ->; apply B; left; reflexivity). reflexivity.
Qed.
Theorem C94_no_sign : forall conf ls c t rest, config_text conf ls -> conf <> [] -> is_space c = false -> c <> c_lbrack -> c <> c_hash -> c <> c_semi ->
  ~ In c_eq (c :: t) -> ~ In c_colon (c :: t) -> proper_lines (ls ++ (c :: t) :: rest) ->
  (exists e, makeConfigDict (Some (unlines (ls ++ (c :: t) :: rest))) = Bad e) /\
  (rest = [] -> makeConfigDict (Some (unlines (ls ++ (c :: t) :: rest))) = Bad ParsingError).
Proof.
  intros conf ls c t rest T Ne S N1 N2 N3 A B P. unfold makeConfigDict, read_conf, read_ini. rewrite (proper_read _ P), map_app. cbn [map].
  destruct (config_state conf ls (with_nl (c :: t) :: map with_nl rest) T) as (os & sec & opt & _ & L & ->).
  destruct (exists_last Ne) as (c0 & p & Ec). specialize (L c0 p Ec). subst sec.
  assert (V : strip (with_nl (c :: t)) = c :: rstrip t).
  { unfold with_nl. rewrite strip_app_sp by reflexivity. unfold strip, lstrip, rstrip. rewrite lstrip_by_head by exact S. now rewrite rstrip_cons_ns by exact S. }
  assert (In' : forall x, In x (c :: rstrip t) -> In x (c :: t)).
  { intros x [-> | I]; [left; reflexivity | right]. destruct (rstrip_by_decomp is_space t) as (b & _ & E & _). rewrite E. apply in_or_app. left. exact I. }
  assert (E : read_ini_line (mkReading os (Some (fst p)) opt 0 false) (with_nl (c :: t)) = Got (mkReading os (Some (fst p)) opt 0 true)).
  { unfold read_ini_line. cbn [r_sections r_section r_option r_indent r_error]. rewrite V. cbn [is_comment is_nil].
    rewrite (proj2 (N.eqb_neq _ _) N2), (proj2 (N.eqb_neq _ _) N3). cbn [orb].
    assert (Id : indent_of (with_nl (c :: t)) = 0%nat) by (unfold indent_of, with_nl, lstrip; cbn [app]; rewrite lstrip_by_head by exact S; lia). rewrite Id.
    assert (K : forall p : option (str * str), (match p with Some p => if (0 <? 0)%nat then Some p else None | None => None end) = None) by (intros [q|]; reflexivity). rewrite K.
    assert (Hd : section_header (c :: rstrip t) = None). { unfold section_header. rewrite (proj2 (N.eqb_neq _ _) N1). reflexivity. } rewrite Hd.
    unfold option_line. rewrite no_cut; [reflexivity | |]; intros I; [apply A | apply B]; apply In', I. }
  cbn [read_ini_lines]. rewrite E. cbn [bindI]. split.
  - destruct (read_ini_lines _ (map with_nl rest)) as [r |] eqn:R; cbn [bindI]; [| eauto]. rewrite (error_stays _ _ _ R eq_refl). cbn [bindI]. eauto.
  - intros ->. reflexivity.
Qed.
Print Assumptions C94_no_sign.
Example C94_refused_example : makeConfigDict (Some (unlines [lit "# remark"; []; lit "  a = 1"; lit "[main]"])) = Bad MissingSectionHeader /\
  makeConfigDict (Some (unlines (small_section ++ [lit "word"]))) = Bad ParsingError /\
  makeConfigDict (Some (unlines (small_section ++ [lit "word"; lit "[main]"]))) = Bad DuplicateSection /\
  makeConfigDict (Some (unlines (small_section ++ [lit " word"]))) <> Bad ParsingError.
Proof. split; [| split; [| split]]; [vm_compute; reflexivity .. | vm_compute; discriminate]. Qed.
