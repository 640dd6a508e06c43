(** Lemmas about the string primitives. *)
From Coq Require Import List NArith ZArith Bool Lia.
From Verif Require Import Py.Str.
Import ListNotations.
Local Open Scope N_scope.

Notation all_sp := (forallb is_space).
Definition nonsp (c : chr) : bool := negb (is_space c).
Notation no_sp := (forallb nonsp).

Lemma is_nil_true {A} (l : list A) : is_nil l = true <-> l = [].
Proof. destruct l; simpl; split; congruence. Qed.
Lemma is_nil_false {A} (l : list A) : is_nil l = false <-> l <> [].
Proof. destruct l; simpl; split; congruence. Qed.

Lemma str_eqb_eq (a b : str) : str_eqb a b = true <-> a = b.
Proof.
  revert b; induction a as [|x a IH]; intros [|y b]; simpl; try (split; congruence).
  rewrite andb_true_iff, N.eqb_eq, IH. split; [intros [-> ->]; reflexivity|].
  intros H; injection H; auto.
Qed.

Lemma mem_chr_In c s : mem_chr c s = true <-> In c s.
Proof.
  unfold mem_chr. rewrite existsb_exists. split.
  - intros (x & Hx & E). apply N.eqb_eq in E. now subst.
  - intros H. exists c. split; auto. apply N.eqb_refl.
Qed.
Lemma mem_chr_false c s : mem_chr c s = false <-> ~ In c s.
Proof. rewrite <- mem_chr_In. destruct (mem_chr c s); split; congruence. Qed.
Lemma mem_chr_cons c x s : mem_chr c (x :: s) = (c =? x) || mem_chr c s.
Proof. reflexivity. Qed.
Lemma mem_chr_app c a b : mem_chr c (a ++ b) = mem_chr c a || mem_chr c b.
Proof. apply existsb_app. Qed.

(** strip *)
Lemma lstrip_by_app p a s :
  forallb p a = true -> lstrip_by p (a ++ s) = lstrip_by p s.
Proof.
  induction a as [|c a IH]; simpl; auto.
  rewrite andb_true_iff. intros [-> H]. auto.
Qed.

Lemma lstrip_by_nil p a : forallb p a = true -> lstrip_by p a = [].
Proof. intros H. rewrite <- (app_nil_r a). rewrite lstrip_by_app; auto. Qed.

Lemma lstrip_by_head p c s : p c = false -> lstrip_by p (c :: s) = c :: s.
Proof. simpl. intros ->. reflexivity. Qed.

(** decomposition *)
Lemma lstrip_by_decomp p s :
  exists a, forallb p a = true /\ s = a ++ lstrip_by p s /\
            match lstrip_by p s with [] => True | c :: _ => p c = false end.
Proof.
  induction s as [|c s IH]; simpl.
  - exists []. auto.
  - destruct (p c) eqn:E.
    + destruct IH as (a & Ha & Hs & Hh). exists (c :: a). simpl. rewrite E, Ha.
      repeat split; auto. congruence.
    + exists []. simpl. rewrite E. auto.
Qed.

Lemma rstrip_by_app p s b :
  forallb p b = true -> rstrip_by p (s ++ b) = rstrip_by p s.
Proof.
  intros H. induction s as [|c s IH]; simpl.
  - induction b as [|c b IHb]; simpl in *; auto.
    apply andb_true_iff in H as [H1 H2]. rewrite IHb; auto. simpl. now rewrite H1.
  - now rewrite IH.
Qed.

Lemma rstrip_by_nil p b : forallb p b = true -> rstrip_by p b = [].
Proof. intros H. change b with ([] ++ b). now rewrite rstrip_by_app. Qed.

Lemma rstrip_by_last p s c : p c = false -> rstrip_by p (s ++ [c]) = s ++ [c].
Proof.
  intros H. induction s as [|d s IH]; simpl.
  - now rewrite H.
  - rewrite IH. destruct (s ++ [c]) eqn:E; auto. now destruct s.
Qed.

Lemma rstrip_by_decomp p s :
  exists b, forallb p b = true /\ s = rstrip_by p s ++ b /\
            (rstrip_by p s = [] \/ exists t c, rstrip_by p s = t ++ [c] /\ p c = false).
Proof.
  induction s as [|c s IH]; simpl.
  - exists []. auto.
  - destruct IH as (b & Hb & Hs & Hc).
    destruct (is_nil (rstrip_by p s)) eqn:En; simpl.
    + apply is_nil_true in En. rewrite En in *. simpl in Hs. subst b.
      destruct (p c) eqn:E.
      * exists (c :: s). simpl. rewrite E, Hb. auto.
      * exists s. rewrite Hb. repeat split; auto. right. exists [], c. auto.
    + apply is_nil_false in En. exists b. rewrite Hb. split; auto. split.
      * simpl. now rewrite <- Hs.
      * right. destruct Hc as [|(t & d & Ht & Hd)]; [contradiction|].
        exists (c :: t), d. rewrite Ht. auto.
Qed.

Lemma rstrip_by_idem p s : rstrip_by p (rstrip_by p s) = rstrip_by p s.
Proof.
  destruct (rstrip_by_decomp p s) as (b & _ & _ & [->|(t & c & -> & H)]); auto.
  now apply rstrip_by_last.
Qed.
Lemma lstrip_by_idem p s : lstrip_by p (lstrip_by p s) = lstrip_by p s.
Proof.
  destruct (lstrip_by_decomp p s) as (a & _ & _ & H).
  destruct (lstrip_by p s); auto. now apply lstrip_by_head.
Qed.

Lemma rstrip_cons_ns p c s : p c = false -> rstrip_by p (c :: s) = c :: rstrip_by p s.
Proof. simpl. intros ->. now rewrite andb_false_r. Qed.

Lemma forallb_impl {A} (p q : A -> bool) l :
  (forall x, p x = true -> q x = true) -> forallb p l = true -> forallb q l = true.
Proof. intros H. rewrite !forallb_forall. auto. Qed.

Lemma strip_decomp s :
  exists a b, all_sp a = true /\ all_sp b = true /\ s = a ++ strip s ++ b /\
     (strip s = [] \/ ((exists c t, strip s = c :: t /\ is_space c = false) /\
                       (exists t c, strip s = t ++ [c] /\ is_space c = false))).
Proof.
  unfold strip, rstrip, lstrip.
  destruct (lstrip_by_decomp is_space s) as (a & Ha & Hs & Hh).
  set (u := lstrip_by is_space s) in *.
  destruct (rstrip_by_decomp is_space u) as (b & Hb & Hu & Hc).
  exists a, b. split; auto. split; auto. split; [congruence|].
  destruct Hc as [Hc|Hc]; auto. right. split; auto.
  destruct u as [|c u]; [destruct Hc as (t & d & E & _); simpl in E; destruct t; discriminate|].
  rewrite rstrip_cons_ns by auto. eauto.
Qed.

Lemma strip_surround a b s : all_sp a = true -> all_sp b = true -> strip (a ++ s ++ b) = strip s.
Proof.
  intros Ha Hb. unfold strip, rstrip, lstrip. rewrite lstrip_by_app by auto.
  destruct (lstrip_by_decomp is_space s) as (a' & Ha' & Hs & Hh).
  set (u := lstrip_by is_space s) in *.
  rewrite Hs. rewrite <- app_assoc, lstrip_by_app by auto.
  destruct u as [|c u].
  - simpl. rewrite lstrip_by_nil; auto.
  - rewrite <- app_comm_cons, lstrip_by_head by auto. rewrite app_comm_cons.
    now rewrite rstrip_by_app.
Qed.

Lemma strip_app_sp s b : all_sp b = true -> strip (s ++ b) = strip s.
Proof. intros H. apply (strip_surround [] b s); auto. Qed.
Lemma strip_sp_app a s : all_sp a = true -> strip (a ++ s) = strip s.
Proof. intros H. rewrite <- (app_nil_r s) at 1. apply strip_surround; auto. Qed.
Lemma strip_all_sp s : all_sp s = true -> strip s = [].
Proof. intros H. rewrite <- (app_nil_r s). rewrite strip_sp_app; auto. Qed.

Lemma strip_nil_iff s : strip s = [] <-> all_sp s = true.
Proof.
  split; [|apply strip_all_sp].
  intros E. destruct (strip_decomp s) as (a & b & Ha & Hb & Hs & _).
  rewrite E in Hs. rewrite Hs. simpl. now rewrite forallb_app, Ha, Hb.
Qed.

Lemma strip_idem s : strip (strip s) = strip s.
Proof.
  destruct (strip_decomp s) as (a & b & Ha & Hb & Hs & _).
  symmetry. rewrite Hs at 1. now rewrite strip_surround.
Qed.

(** split *)
Lemma split_aux_fst_ns s : no_sp (fst (split_aux s)) = true.
Proof.
  induction s as [|c s IH]; simpl; auto.
  destruct (split_aux s) as [w ws]; simpl in *.
  destruct (is_space c) eqn:E; simpl; auto. unfold nonsp. now rewrite E.
Qed.

Lemma split_ws_cons_sp c s : is_space c = true -> split_ws (c :: s) = split_ws s.
Proof. intros H. unfold split_ws. simpl. destruct (split_aux s). now rewrite H. Qed.

Lemma split_ws_sp_app a s : all_sp a = true -> split_ws (a ++ s) = split_ws s.
Proof.
  induction a as [|c a IH]; simpl; auto. rewrite andb_true_iff. intros [H1 H2].
  rewrite split_ws_cons_sp; auto.
Qed.

Lemma split_ws_all_sp s : all_sp s = true -> split_ws s = [].
Proof. intros H. rewrite <- (app_nil_r s). now rewrite split_ws_sp_app. Qed.

Lemma split_aux_app_sp a c b :
  is_space c = true ->
  split_aux (a ++ c :: b) =
  (fst (split_aux a), snd (split_aux a) ++ split_ws b).
Proof.
  intros H. induction a as [|x a IH].
  - simpl. unfold split_ws. destruct (split_aux b) as [w ws]. rewrite H. reflexivity.
  - simpl. rewrite IH. destruct (split_aux a) as [w ws]; simpl.
    destruct (is_space x); simpl; auto. destruct (is_nil w); auto.
Qed.

Lemma split_ws_app a c b :
  is_space c = true -> split_ws (a ++ c :: b) = split_ws a ++ split_ws b.
Proof.
  intros H. unfold split_ws at 1. rewrite (split_aux_app_sp a c b H).
  change (split_ws a) with (let (w, ws) := split_aux a in if is_nil w then ws else w :: ws).
  destruct (split_aux a) as [w ws]; simpl. now destruct (is_nil w).
Qed.

Lemma split_ws_app_sp a d b :
  d <> [] -> all_sp d = true -> split_ws (a ++ d ++ b) = split_ws a ++ split_ws b.
Proof.
  destruct d as [|c d]; [congruence|]. simpl. rewrite andb_true_iff. intros _ [H1 H2].
  rewrite split_ws_app by auto. now rewrite split_ws_sp_app.
Qed.

Lemma split_ws_trail a b : all_sp b = true -> split_ws (a ++ b) = split_ws a.
Proof.
  intros H. destruct b as [|c b]; [rewrite app_nil_r; reflexivity|].
  simpl in H. apply andb_true_iff in H as [H1 H2].
  rewrite split_ws_app by auto. rewrite (split_ws_all_sp b) by auto. now rewrite app_nil_r.
Qed.

Lemma split_ws_surround a b s : all_sp a = true -> all_sp b = true ->
  split_ws (a ++ s ++ b) = split_ws s.
Proof. intros. rewrite split_ws_sp_app by auto. now apply split_ws_trail. Qed.

Lemma split_ws_strip s : split_ws (strip s) = split_ws s.
Proof.
  destruct (strip_decomp s) as (a & b & Ha & Hb & Hs & _).
  symmetry. rewrite Hs at 1. now rewrite split_ws_surround.
Qed.

Lemma split_aux_word w : no_sp w = true -> split_aux w = (w, []).
Proof.
  induction w as [|c w IH]; simpl; auto. rewrite andb_true_iff. intros [H1 H2].
  rewrite IH by auto. unfold nonsp in H1. apply negb_true_iff in H1. now rewrite H1.
Qed.
Lemma split_ws_word w : w <> [] -> no_sp w = true -> split_ws w = [w].
Proof.
  intros Hn Hw. unfold split_ws. rewrite split_aux_word by auto.
  destruct w; [contradiction|reflexivity].
Qed.

Lemma split_aux_words s : Forall (fun w => w <> [] /\ no_sp w = true) (snd (split_aux s)).
Proof.
  induction s as [|c s IH]; simpl; auto.
  pose proof (split_aux_fst_ns s) as Hn.
  destruct (split_aux s) as [w ws]; simpl in *.
  destruct (is_space c); simpl; auto. destruct (is_nil w) eqn:E; auto.
  constructor; auto. split; auto. now apply is_nil_false.
Qed.
Lemma split_ws_words s : Forall (fun w => w <> [] /\ no_sp w = true) (split_ws s).
Proof.
  unfold split_ws. pose proof (split_aux_words s). pose proof (split_aux_fst_ns s).
  destruct (split_aux s) as [w ws]; simpl in *. destruct (is_nil w) eqn:E; auto.
  constructor; auto. split; auto. now apply is_nil_false.
Qed.

Lemma split_ws_nil_iff s : split_ws s = [] <-> all_sp s = true.
Proof.
  split; [|apply split_ws_all_sp].
  induction s as [|c s IH]; simpl; auto.
  unfold split_ws in *. simpl. destruct (split_aux s) as [w ws].
  destruct (is_space c) eqn:E; simpl.
  - destruct (is_nil w); auto; discriminate.
  - discriminate.
Qed.

Lemma split_ws_join d toks :
  d <> [] -> all_sp d = true -> Forall (fun w => w <> [] /\ no_sp w = true) toks ->
  split_ws (join d toks) = toks.
Proof.
  intros Hd Hs. induction toks as [|t toks IH]; intros H; auto.
  inversion H as [|? ? [Hn Hw] Hr]; subst.
  destruct toks as [|t2 toks]; [simpl; now apply split_ws_word|].
  change (join d (t :: t2 :: toks)) with (t ++ d ++ join d (t2 :: toks)).
  rewrite split_ws_app_sp by auto. rewrite IH by auto. now rewrite split_ws_word.
Qed.

(** re_split *)
Lemma re_split_aux_run s :
  re_split_aux true s = re_split_aux false s \/
  (exists c t, s = c :: t /\ is_space c = true /\
     fst (re_split_aux false s) = [] /\
     snd (re_split_aux false s) = fst (re_split_aux true s) :: snd (re_split_aux true s)).
Proof.
  destruct s as [|c s]; simpl; auto.
  destruct (is_space c) eqn:E; auto. right. exists c, s.
  destruct (re_split_aux true s); auto.
Qed.

(** On a string whose last character is not a space, [re_split_aux] and
    [split_aux] agree up to the empty leading field. *)
Lemma re_split_aux_split s x : is_space x = false ->
  let s' := s ++ [x] in
  (re_split_aux false s' = (fst (split_aux s'), snd (split_aux s')) \/
   (exists c t, s' = c :: t /\ is_space c = true /\
        re_split_aux false s' = ([], snd (split_aux s')))) /\
  (match s' with c :: _ => is_space c | [] => false end = true ->
        fst (re_split_aux true s') :: snd (re_split_aux true s') = snd (split_aux s')) /\
  (match s' with c :: _ => is_space c | [] => false end = false ->
        re_split_aux true s' = split_aux s').
Proof.
  intros Hx. induction s as [|c s IH]; simpl.
  - rewrite Hx. simpl. repeat split; auto; congruence.
  - simpl in IH. destruct IH as (I1 & I2 & I3).
    destruct (is_space c) eqn:Ec.
    + assert (K : fst (re_split_aux true (s ++ [x])) :: snd (re_split_aux true (s ++ [x]))
                  = (if is_nil (fst (split_aux (s ++ [x]))) then snd (split_aux (s ++ [x]))
                     else fst (split_aux (s ++ [x])) :: snd (split_aux (s ++ [x])))).
      { destruct (match s ++ [x] with c0 :: _ => is_space c0 | [] => false end) eqn:Eh.
        - rewrite I2 by auto.
          destruct (s ++ [x]) as [|y r] eqn:Er; [discriminate|]. simpl.
          destruct (split_aux r) as [w ws]; simpl. rewrite Eh. simpl. reflexivity.
        - rewrite I3 by auto.
          destruct (s ++ [x]) as [|y r] eqn:Er; [destruct s; discriminate|]. simpl.
          destruct (split_aux r) as [w ws]; simpl. rewrite Eh. simpl. reflexivity. }
      destruct (split_aux (s ++ [x])) as [w ws]. simpl in *.
      destruct (re_split_aux true (s ++ [x])) as [w' ws']. simpl in *.
      repeat split; try congruence.
      right. exists c, (s ++ [x]). repeat split; auto. now rewrite K.
    + assert (K : re_split_aux false (s ++ [x]) = split_aux (s ++ [x]) ).
      { destruct I1 as [I1|(c' & t & E & Hs & I1)].
        - rewrite I1. now destruct (split_aux (s ++ [x])).
        - rewrite I1. rewrite E. simpl. destruct (split_aux t) as [w ws]. rewrite Hs.
          reflexivity. }
      rewrite K. destruct (split_aux (s ++ [x])) as [w ws]. simpl.
      repeat split; auto; congruence.
Qed.

Lemma re_split_strip s :
  re_split (strip s) = if is_nil (strip s) then [[]] else split_ws s.
Proof.
  rewrite <- split_ws_strip.
  destruct (strip_decomp s) as (_ & _ & _ & _ & _ & [E|[(c & t & E1 & H1) (t2 & x & E2 & H2)]]).
  - rewrite E. reflexivity.
  - destruct (re_split_aux_split t2 x H2) as ([I1|(c' & t' & E' & H' & _)] & _ & _).
    + rewrite E1 at 2. simpl. rewrite E2. unfold re_split, split_ws. rewrite I1.
      rewrite <- E2, E1. simpl. destruct (split_aux t) as [w ws]. rewrite H1. reflexivity.
    + rewrite <- E2, E1 in E'. congruence.
Qed.

(** lines *)
Lemma lines_concat s : concat (lines s) = s.
Proof.
  induction s as [|c s IH]; simpl; auto.
  destruct (c =? c_nl); simpl; [now rewrite IH|].
  destruct (lines s) as [|l ls]; simpl in *; now rewrite <- IH.
Qed.

Lemma lines_cons_nonl l s :
  mem_chr c_nl l = false -> lines (l ++ c_nl :: s) = (l ++ [c_nl]) :: lines s.
Proof.
  induction l as [|c l IH]; intros H.
  - reflexivity.
  - cbn [mem_chr existsb] in H. apply orb_false_iff in H as [H1 H2].
    cbn [app lines]. rewrite N.eqb_sym in H1. rewrite H1. rewrite (IH H2). reflexivity.
Qed.


Lemma lines_unlines_app ls s :
  Forall (fun l => mem_chr c_nl l = false) ls ->
  lines (unlines ls ++ s) = map (fun l => l ++ nl) ls ++ lines s.
Proof.
  intros H. induction H as [|l ls Hl Hls IH]; simpl; auto.
  unfold unlines in *. simpl. unfold nl at 1. rewrite <- !app_assoc. simpl.
  rewrite lines_cons_nonl by auto. now rewrite IH.
Qed.
Lemma lines_unlines ls :
  Forall (fun l => mem_chr c_nl l = false) ls ->
  lines (unlines ls) = map (fun l => l ++ nl) ls.
Proof. intros H. rewrite <- (app_nil_r (unlines ls)), lines_unlines_app by auto.
  now rewrite app_nil_r. Qed.

Lemma unlines_app a b : unlines (a ++ b) = unlines a ++ unlines b.
Proof. unfold unlines. now rewrite map_app, concat_app. Qed.
Lemma unlines_cons a b : unlines (a :: b) = a ++ nl ++ unlines b.
Proof. unfold unlines. simpl. now rewrite <- app_assoc. Qed.
Lemma unlines_one a : unlines [a] = a ++ nl.
Proof. unfold unlines. simpl. now rewrite app_nil_r. Qed.

(** A text that is empty or ends with a newline splits independently of what
    follows. *)
Definition ends_nl (s : str) : Prop := s = [] \/ exists t, s = t ++ [c_nl].

Lemma lines_app s t : ends_nl s -> lines (s ++ t) = lines s ++ lines t.
Proof.
  intros [->|(u & ->)]; auto.
  rewrite <- app_assoc. simpl.
  revert t. induction u as [|c u IH]; intros t; simpl; auto.
  destruct (c =? c_nl); [now rewrite IH|]. rewrite IH.
  pose proof (lines_concat (u ++ [c_nl])) as Hc.
  destruct (lines (u ++ [c_nl])) as [|l ls]; simpl; auto.
  simpl in Hc. now destruct u.
Qed.

Lemma ends_nl_app a b : ends_nl b -> b <> [] -> ends_nl (a ++ b).
Proof. intros [->|(t & ->)] H; [congruence|]. right. exists (a ++ t). now rewrite app_assoc. Qed.
Lemma ends_nl_app2 a b : ends_nl a -> ends_nl b -> ends_nl (a ++ b).
Proof.
  intros Ha Hb. destruct b as [|c b]; [now rewrite app_nil_r|].
  apply ends_nl_app; auto. congruence.
Qed.
Lemma ends_nl_nl a : ends_nl (a ++ nl).
Proof. right. now exists a. Qed.
Lemma ends_nl_unlines ls : ends_nl (unlines ls).
Proof.
  induction ls as [|l ls IH]; [left; reflexivity|].
  unfold unlines. simpl. apply ends_nl_app2; auto. apply ends_nl_nl.
Qed.

Lemma lines_no_inner s l : In l (lines s) -> exists b, (l = b ++ [c_nl] \/ l = b) /\ mem_chr c_nl b = false.
Proof.
  revert l. induction s as [|c s IH]; simpl; [tauto|]. intros l.
  destruct (c =? c_nl) eqn:E.
  - intros [<-|H]; auto. exists []. apply N.eqb_eq in E. subst. auto.
  - destruct (lines s) as [|x xs].
    + intros [<-|[]]. exists [c]. rewrite mem_chr_cons, N.eqb_sym, E. auto.
    + intros [<-|H].
      * destruct (IH x (or_introl eq_refl)) as (b & Hb & Hm). exists (c :: b).
        split. { destruct Hb as [-> | ->]; auto. }
        rewrite mem_chr_cons, N.eqb_sym, E. exact Hm.
      * apply IH. now right.
Qed.

(** splitlines *)
Lemma splitlines_concat s : concat (splitlines s) = s.
Proof.
  induction s as [|c s IH]; simpl; auto.
  destruct (is_linebreak c && negb ((c =? c_cr) && starts_nl s)); simpl; [now rewrite IH|].
  destruct (splitlines s) as [|l ls]; simpl in *; now rewrite <- IH.
Qed.

(** universal newlines *)
Lemma univ_newlines_id s : mem_chr c_cr s = false -> univ_newlines s = s.
Proof.
  induction s as [|c s IH]; auto.
  rewrite mem_chr_cons, orb_false_iff. intros [H1 H2]. cbn [univ_newlines].
  rewrite N.eqb_sym in H1. rewrite H1. now rewrite IH.
Qed.

Lemma univ_newlines_no_cr s : mem_chr c_cr (univ_newlines s) = false.
Proof.
  induction s as [|c s IH]; auto. cbn [univ_newlines].
  destruct (c =? c_cr) eqn:E.
  - destruct (starts_nl s); auto.
  - rewrite mem_chr_cons, N.eqb_sym, E. auto.
Qed.

Lemma readlines_no_cr s : mem_chr c_cr s = false -> lines (univ_newlines s) = lines s.
Proof. intros H. now rewrite univ_newlines_id. Qed.

(** split_chr / join *)
Lemma split_chr_aux_nosep d s : mem_chr d s = false -> split_chr_aux d s = (s, []).
Proof.
  induction s as [|c s IH]; auto. rewrite mem_chr_cons, orb_false_iff.
  intros [H1 H2]. cbn [split_chr_aux]. rewrite IH by auto. rewrite N.eqb_sym in H1.
  now rewrite H1.
Qed.
Lemma split_chr_aux_app d a b : mem_chr d a = false ->
  split_chr_aux d (a ++ d :: b) = (a, fst (split_chr_aux d b) :: snd (split_chr_aux d b)).
Proof.
  induction a as [|c a IH]; simpl.
  - intros _. rewrite N.eqb_refl. now destruct (split_chr_aux d b).
  - rewrite orb_false_iff. intros [H1 H2].
    rewrite IH by auto. rewrite N.eqb_sym in H1. now rewrite H1.
Qed.
Lemma split_chr_join d items : items <> [] ->
  Forall (fun i => mem_chr d i = false) items -> split_chr d (join [d] items) = items.
Proof.
  intros Hn H. induction H as [|i items Hi Hr IH]; [congruence|].
  destruct items as [|j items].
  - simpl. unfold split_chr. now rewrite split_chr_aux_nosep.
  - change (join [d] (i :: j :: items)) with (i ++ d :: join [d] (j :: items)).
    unfold split_chr. rewrite split_chr_aux_app by auto.
    unfold split_chr in IH. specialize (IH ltac:(congruence)).
    destruct (split_chr_aux d (join [d] (j :: items))). simpl. congruence.
Qed.
Lemma join_split_chr d s : join [d] (split_chr d s) = s.
Proof.
  unfold split_chr. induction s as [|c s IH]; auto. cbn [split_chr_aux].
  destruct (split_chr_aux d s) as [w ws]. destruct (c =? d) eqn:E.
  - apply N.eqb_eq in E. subst c. destruct ws; simpl in *; now rewrite <- IH.
  - destruct ws; simpl in *; now rewrite <- IH.
Qed.
Lemma split_chr_length d s : length (split_chr d s) = S (count_chr d s).
Proof.
  unfold split_chr. induction s as [|c s IH]; simpl; auto.
  destruct (split_chr_aux d s) as [w ws]. destruct (c =? d); simpl in *; auto.
Qed.

(** slices *)
Lemma slice_to_nat {A} (l : list A) n : slice_to l (Z.of_nat n) = firstn n l.
Proof. unfold slice_to. destruct (Z.ltb_spec (Z.of_nat n) 0); [lia|]. now rewrite Nat2Z.id. Qed.
Lemma slice_from_nat {A} (l : list A) n : slice_from l (Z.of_nat n) = skipn n l.
Proof. unfold slice_from. destruct (Z.ltb_spec (Z.of_nat n) 0); [lia|]. now rewrite Nat2Z.id. Qed.
Lemma slice_to_ge {A} (l : list A) n : (Z.of_nat (length l) <= n)%Z -> slice_to l n = l.
Proof. intros H. unfold slice_to. destruct (Z.ltb_spec n 0); [lia|]. apply firstn_all2. lia. Qed.
Lemma slice_from_ge {A} (l : list A) n : (Z.of_nat (length l) <= n)%Z -> slice_from l n = [].
Proof. intros H. unfold slice_from. destruct (Z.ltb_spec n 0); [lia|]. apply skipn_all2. lia. Qed.
