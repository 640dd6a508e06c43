(** C136: the files of one conversion do not overwrite each other. *)
From Coq Require Import List NArith ZArith Bool Lia.
From Verif Require Import Py.Str Py.Res Py.Num Model.Dict Model.TextParser Model.CommonUtils Model.NAWrite Model.NARead Model.Utils Model.NCWrite
  Spec.TextSpec Spec.Records Spec.RoundTripSpec Spec.Samples Spec.RecordSamples Spec.WholeNum Proofs.StrLemmas Proofs.NumLemmas Props.RoundTrip Props.UtilProps Props.NCWriteProps.
Import ListNotations.
Local Open Scope nat_scope.

(** The part of the name after the last dot (all of it if there is none) has two
    characters or more. *)
Definition long_ending (f : str) : Prop :=
  exists ext, ~ In c_dot ext /\ 2 <= length ext /\ (f = ext \/ exists stem, f = stem ++ [c_dot] ++ ext).

(** ** What one dictionary writes does not depend on the files that are there *)
Definition puts (l : list (str * str)) (fs : disk) : disk := fold_left (fun d p => sd_set d (fst p) (snd p)) l fs.
Lemma puts_app a b fs : puts (a ++ b) fs = puts b (puts a fs).
Proof. apply fold_left_app. Qed.
Lemma puts_get l : forall fs n, sd_get (puts l fs) n = match sd_get (puts l []) n with Some t => Some t | None => sd_get fs n end.
Proof.
  intros fs n. unfold puts. rewrite !fold_get. cbn [sd_get]. match goal with |- context [match ?v with Some _ => _ | None => None end] => destruct v end; reflexivity.
Qed.
Lemma puts_none l : forall fs n, ~ In n (map fst l) -> sd_get (puts l fs) n = sd_get fs n.
Proof.
  induction l as [| [k v] l IH]; intros fs n N; [reflexivity |]. cbn [puts fold_left fst snd]. fold (puts l (sd_set fs k v)). rewrite IH by (intros I; apply N; right; exact I).
  rewrite NCWriteProps.sd_get_set. destruct (str_eqb n k) eqn:E; [| reflexivity]. apply str_eqb_eq in E. subst. exfalso. apply N. left. reflexivity.
Qed.
Section Effect.
Context {num : Type} {Num : NumOps num}.
Lemma put_effect (o : opts num) nh name d : exists r l, (forall fs, put_file o nh name d fs = (r, puts l fs)) /\ (forall n, In n (map fst l) -> n = name) /\ (forall u, r = Ok u -> map fst l = [name]).
Proof.
  unfold put_file. destruct (openNAFile_w d) as [[c d'] | e]; [| exists (Err e), []; cbn; repeat split; [tauto | discriminate]].
  destruct (write_body o c nh (mkW [] [] d')) as [r st]. exists r, [(name, w_file st)]. cbn. repeat split. intros n [<- | []]. reflexivity.
Qed.
Definition volume_of (name n : str) : Prop := exists i, (0 <= i)%Z /\ n = chunk_name name i.
Lemma loop_effect (o : opts num) d name vl sl al nvol : forall fuel start ivol names, (0 <= ivol)%Z -> exists r l,
  (forall fs, subsets_loop fuel o d name vl sl al nvol start ivol names fs = (r, puts l fs)) /\ (forall n, In n (map fst l) -> volume_of name n) /\
  (forall w, r = Ok w -> forall n, In n w <-> In n names \/ In n (map fst l)).
Proof.
  induction fuel as [| fuel IH]; intros start ivol names Hi; cbn [subsets_loop]; [exists (Err EHang), []; cbn; repeat split; try tauto; discriminate |].
  destruct (start <? al)%Z; [| exists (Ok names), []; split; [reflexivity |]; split; [intros n [] |]; intros w Q n; injection Q as <-; cbn; tauto]. cbv zeta.
  destruct (bindR _ _) as [d' | e]; [| exists (Err e), []; cbn; repeat split; try tauto; discriminate].
  destruct (put_effect o false (chunk_name name (ivol + 1)) d') as (r & l & P & In1 & Ok1). destruct r as [u | e].
  - destruct (IH (if (start + sl >? al)%Z then al else (start + sl)%Z) (ivol + 1)%Z (names ++ [chunk_name name (ivol + 1); chunk_name name (ivol + 1)]) ltac:(lia)) as (r' & l' & P' & In' & Ok').
    exists r', (l ++ l'). split; [intros fs; rewrite P, P', puts_app; reflexivity |]. split.
    + intros n I. rewrite map_app in I. apply in_app_or in I as [I | I]; [apply In1 in I; subst; exists (ivol + 1)%Z; split; [lia | reflexivity] | exact (In' n I)].
    + intros w Q n. rewrite (Ok' w Q n). rewrite map_app, !in_app_iff. rewrite (Ok1 u eq_refl). cbn. tauto.
  - exists (Err e), l. split; [intros fs; rewrite P; reflexivity |]. split; [| discriminate]. intros n I. apply In1 in I. subst. exists (ivol + 1)%Z. split; [lia | reflexivity].
Qed.
Lemma one_effect fuel (o : opts num) nh lim name d : exists r l, (forall fs, write_one fuel o nh lim name d fs = (r, puts l fs)) /\
  (forall n, In n (map fst l) -> n = name \/ lim <> None /\ volume_of name n) /\ (forall w, r = Ok w -> forall n, In n w <-> In n (map fst l)).
Proof.
  assert (W : exists r l, (forall fs, match put_file o nh name d fs with (Err e, fs') => (Err e, fs') | (Ok _, fs') => (Ok [name], fs') end = (r, puts l fs)) /\
    (forall n, In n (map fst l) -> n = name \/ lim <> None /\ volume_of name n) /\ (forall w, r = Ok w -> forall n, In n w <-> In n (map fst l))).
  { destruct (put_effect o nh name d) as (r & l & P & In1 & Ok1). destruct r as [u | e].
    - exists (Ok [name]), l. split; [intros fs; rewrite P; reflexivity |]. split; [auto |]. intros w Q n. injection Q as <-. rewrite (Ok1 u eq_refl). reflexivity.
    - exists (Err e), l. split; [intros fs; rewrite P; reflexivity |]. split; [auto |]. discriminate. }
  unfold write_one. destruct lim as [s |]; [| exact W]. destruct (bindR _ _) as [[|] | e]; [| exact W | exists (Err e), []; cbn; repeat split; try tauto; discriminate].
  unfold writeNAFileSubsets. destruct (bindR _ _) as [[vl al] | e]; [| exists (Err e), []; cbn; repeat split; try tauto; discriminate].
  destruct (s =? 0)%Z; [exists (Err EZeroDivision), []; cbn; repeat split; try tauto; discriminate |].
  destruct (loop_effect o d name vl s al (al / s + (if (0 <? al mod s)%Z then 1 else 0))%Z fuel 0%Z 0%Z [] ltac:(lia)) as (r & l & P & In1 & Ok1).
  exists r, l. split; [exact P |]. split; [intros n I; right; split; [discriminate | exact (In1 n I)] |]. intros w Q n. rewrite (Ok1 w Q n). cbn. tauto.
Qed.
(** One entry of the list of a conversion: what it writes into an empty directory. *)
Definition alone (fuel : nat) (o : opts num) nh lim (name : str) (d : na num) := write_one fuel o nh lim name d [].
Lemma all_effect fuel s (o : opts num) nh lim : forall l fs names ds' fs', write_all fuel s o nh lim l fs = (Ok (names, ds'), fs') ->
  (forall i j p q n, nth_error l i = Some p -> nth_error l j = Some q -> n = fst p \/ lim <> None /\ volume_of (fst p) n -> n = fst q \/ lim <> None /\ volume_of (fst q) n -> i = j) ->
  exists parts, names = concat parts /\ length parts = length l /\ length ds' = length l /\
    (forall n, ~ In n names -> sd_get fs' n = sd_get fs n) /\
    (forall n, In n names -> exists p, In p l /\ (n = fst p \/ lim <> None /\ volume_of (fst p) n)) /\
    forall i part p d, nth_error parts i = Some part -> nth_error l i = Some p -> nth_error ds' i = Some d ->
      fst (alone fuel o nh lim (fst p) d) = Ok part /\
      forall n, In n part -> sd_get fs' n = sd_get (snd (alone fuel o nh lim (fst p) d)) n /\ sd_get fs' n <> None.
Proof.
  induction l as [| [name d] l IH]; intros fs names ds' fs' E Sep; cbn [write_all] in E.
  - injection E as <- <- <-. exists []. repeat split; try reflexivity; try (intros n []). + destruct i; discriminate. + destruct i; discriminate. + destruct i; discriminate.
  - destruct (prepare s d) as [d1 |]; [| discriminate E]. destruct (one_effect fuel o nh lim name d1) as (r & t & P & In1 & Ok1). rewrite P in E. destruct r as [w |]; [| discriminate E].
    destruct (write_all fuel s o nh lim l (puts t fs)) as [[[names1 ds1] |] fs1] eqn:E1; [| discriminate E]. injection E as <- <- <-.
    destruct (IH _ _ _ _ E1) as (parts & -> & L1 & L2 & Fr & Nm & B). { intros i j p q n Hp Hq Vp Vq. apply Nat.succ_inj. exact (Sep (S i) (S j) p q n Hp Hq Vp Vq). }
    assert (Apart : forall n, In n w -> ~ In n (concat parts)).
    { intros n I J. destruct (Nm n J) as (p & Ip & Vp). apply In_nth_error in Ip as (j & Hj). specialize (Ok1 w eq_refl n). apply Ok1, In1 in I.
      specialize (Sep 0 (S j) (name, d) p n eq_refl Hj I Vp). discriminate Sep. }
    exists (w :: parts). split; [reflexivity |]. split; [cbn; congruence |]. split; [cbn; congruence |]. split; [| split].
    + intros n N. rewrite Fr by (intros I; apply N, in_or_app; auto). apply puts_none. intros I. apply N, in_or_app. left. apply (Ok1 w eq_refl), I.
    + intros n I. apply in_app_or in I as [I | I].
      * exists (name, d). split; [left; reflexivity |]. apply In1, (Ok1 w eq_refl), I.
      * destruct (Nm n I) as (p & Ip & Vp). exists p. split; [right; exact Ip | exact Vp].
    + intros [| i] part p e Hp Hl Hd; cbn [nth_error] in Hp, Hl, Hd; [| exact (B i part p e Hp Hl Hd)]. injection Hp as <-. injection Hl as <-. injection Hd as <-. unfold alone. cbn [fst]. rewrite P. cbn [fst snd].
      split; [reflexivity |]. intros n I. rewrite Fr by (apply Apart, I). apply (Ok1 w eq_refl) in I. rewrite puts_get.
      assert (S : sd_get (puts t []) n <> None).
      { unfold puts. rewrite fold_get. cbn [sd_get]. clear -I. induction t as [| [k v] t IH]; [destruct I |]. cbn [last_value].
        destruct (last_value t n) eqn:Q; [discriminate |]. destruct I as [I | I]; [cbn in I; subst k; rewrite (proj2 (str_eqb_eq n n) eq_refl); discriminate |]. exfalso. exact (IH I eq_refl). }
      destruct (sd_get (puts t []) n); [| congruence]. split; [reflexivity | discriminate].
Qed.
End Effect.

(** ** Names *)
Lemma digits_stop a b c c' r r' : Forall (fun x => is_digit x = true) a -> Forall (fun x => is_digit x = true) b -> is_digit c = false -> is_digit c' = false ->
  a ++ c :: r = b ++ c' :: r' -> a = b.
Proof.
  intros Fa. revert b. induction Fa as [| x a Hx Fa IH]; intros [| y b] Fb Nc Nc' Q; [reflexivity | | |]; cbn in Q; injection Q as Q1 Q2.
  - inversion Fb as [| ? ? Hy]; subst. congruence.
  - congruence.
  - subst y. f_equal. inversion Fb; subst. exact (IH b ltac:(assumption) Nc Nc' Q2).
Qed.
Lemma dec_digits n : Forall (fun x => is_digit x = true) (dec_of_nat n).
Proof. unfold dec_of_nat, dec_of_N. generalize (N.to_uint (N.of_nat n)). intros u. induction u; cbn; constructor; auto; reflexivity. Qed.
Definition front (f : str) : str := join [c_dot] (removelast (split_chr c_dot f)) ++ [c_us].
Definition ending (f : str) : str := last (split_chr c_dot f) [].
Lemma name_form f n i name : n <> 1 -> nth_error (constructNAFileNames f n) i = Some name -> name = front f ++ dec_of_nat (S i) ++ [c_dot] ++ ending f.
Proof.
  intros Hn. unfold constructNAFileNames. destruct (Nat.eqb_spec n 1) as [| _]; [contradiction |]. rewrite nth_error_map. intros Q.
  destruct (nth_error (seq 1 n) i) as [k |] eqn:K; [| discriminate Q]. cbn [option_map] in Q.
  assert (k = S i) as ->. { apply nth_error_nth with (d := 0) in K as K'. rewrite seq_nth in K'; [lia |]. rewrite <- (seq_length n 1). apply nth_error_Some. congruence. }
  injection Q as <-. unfold front, ending. rewrite <- !app_assoc. reflexivity.
Qed.
Lemma long_ending_length f : long_ending f -> 2 <= length (ending f).
Proof.
  intros (ext & Nd & L & [-> | (stem & ->)]); unfold ending.
  - assert (E : split_chr c_dot ext = [ext]). { unfold split_chr. rewrite split_chr_aux_nosep; [reflexivity |]. apply mem_chr_false. exact Nd. }
    rewrite E. exact L.
  - destruct (split_chr_last c_dot stem ext Nd) as (l & E & _). cbn [app]. rewrite E, last_last. exact L.
Qed.
Lemma written_form f i name (lim : option Z) x : name = front f ++ dec_of_nat (S i) ++ [c_dot] ++ ending f -> (lim <> None -> 2 <= length (ending f)) ->
  x = name \/ lim <> None /\ volume_of name x -> exists c r, is_digit c = false /\ x = front f ++ dec_of_nat (S i) ++ c :: r.
Proof.
  intros -> L [-> | (Nl & a & _ & ->)]; [exists c_dot, (ending f); split; reflexivity |]. specialize (L Nl).
  unfold chunk_name, slice_to. cbv zeta. change (-3 <? 0)%Z with true. cbn iota. set (q := front f ++ dec_of_nat (S i)). rewrite (app_assoc (front f)). fold q.
  rewrite app_length. cbn [app length]. replace (Z.to_nat _) with (length q + (length (ending f) - 2)) by lia. rewrite firstn_app_2.
  destruct (length (ending f) - 2) as [| k].
  - cbn [firstn]. rewrite app_nil_r. eexists c_minus, _. split; [reflexivity |]. unfold q. rewrite <- app_assoc. reflexivity.
  - cbn [firstn]. eexists c_dot, _. split; [reflexivity |]. unfold q. rewrite <- !app_assoc. cbn [app]. reflexivity.
Qed.
Lemma names_apart f n (lim : option Z) i j a b x : (lim <> None -> long_ending f) -> nth_error (constructNAFileNames f n) i = Some a -> nth_error (constructNAFileNames f n) j = Some b ->
  x = a \/ lim <> None /\ volume_of a x -> x = b \/ lim <> None /\ volume_of b x -> i = j.
Proof.
  intros Le Ha Hb Va Vb. destruct (Nat.eq_dec n 1) as [-> | Hn].
  - cbn in Ha, Hb. destruct i as [| [|]]; [| discriminate Ha | discriminate Ha]. destruct j as [| [|]]; [reflexivity | discriminate Hb | discriminate Hb].
  - apply (name_form _ _ _ _ Hn) in Ha, Hb.
    destruct (written_form _ _ _ lim x Ha (fun N => long_ending_length f (Le N)) Va) as (c & r & C1 & Q1).
    destruct (written_form _ _ _ lim x Hb (fun N => long_ending_length f (Le N)) Vb) as (c' & r' & C2 & Q2).
    rewrite Q1 in Q2. apply app_inv_head in Q2. apply digits_stop in Q2; auto using dec_digits. apply dec_of_nat_inj in Q2. congruence.
Qed.

(** ** C136 *)
(** The files of a conversion without errors: [part] i are the names of
    dictionary i, no name belongs to two dictionaries, and each file has the text
    that it has if its dictionary alone is written into an empty directory; other
    files stay as they were.  Missing for the whole claim: with a size limit, names
    of one character or none after the last dot. *)
Theorem C136_partial : forall num (Num : NumOps num) fuel s (o : opts num) no_header limit na_file ds fs names ds' fs',
  (limit <> None -> long_ending na_file) ->
  writeNAFiles fuel s o no_header limit na_file ds fs = (Ok (names, ds'), fs') ->
  exists parts, names = concat parts /\ length parts = length ds /\ length ds' = length ds /\
    (forall n, ~ In n names -> sd_get fs' n = sd_get fs n) /\
    (forall i j part part' n, nth_error parts i = Some part -> nth_error parts j = Some part' -> In n part -> In n part' -> i = j) /\
    forall i part d name, nth_error parts i = Some part -> nth_error ds' i = Some d -> nth_error (constructNAFileNames na_file (length ds)) i = Some name ->
      exists alone, write_one fuel o no_header limit name d [] = (Ok part, alone) /\
        forall n, In n part -> exists text, sd_get fs' n = Some text /\ sd_get alone n = Some text.
Proof.
  intros num Num fuel s o nh lim f ds fs names ds' fs' Le E. unfold writeNAFiles in E.
  assert (Ln : length (constructNAFileNames f (length ds)) = length ds) by apply C42_distinct.
  assert (Hf : forall i p, nth_error (combine (constructNAFileNames f (length ds)) ds) i = Some p -> nth_error (constructNAFileNames f (length ds)) i = Some (fst p)).
  { generalize (constructNAFileNames f (length ds)). clear. induction ds as [| d ds IH]; intros [| x l] [| i] p Q; cbn in Q |- *; try discriminate Q; [injection Q as <-; reflexivity | exact (IH l i p Q)]. }
  assert (Sep : forall i j p q n, nth_error (combine (constructNAFileNames f (length ds)) ds) i = Some p -> nth_error (combine (constructNAFileNames f (length ds)) ds) j = Some q ->
    n = fst p \/ lim <> None /\ volume_of (fst p) n -> n = fst q \/ lim <> None /\ volume_of (fst q) n -> i = j).
  { intros i j p q n Hp Hq. exact (names_apart _ _ _ _ _ _ _ _ Le (Hf _ _ Hp) (Hf _ _ Hq)). }
  destruct (all_effect _ _ _ _ _ _ _ _ _ _ E Sep) as (parts & Q & L1 & L2 & Fr & _ & B). rewrite combine_length, Ln, Nat.min_id in L1, L2.
  assert (Get : forall i part, nth_error parts i = Some part -> exists p d, nth_error (combine (constructNAFileNames f (length ds)) ds) i = Some p /\ nth_error ds' i = Some d).
  { intros i part Hi. assert (I : i < length parts) by (apply nth_error_Some; congruence).
    destruct (nth_error (combine (constructNAFileNames f (length ds)) ds) i) as [p |] eqn:Hp; [| apply nth_error_None in Hp; rewrite combine_length in Hp; lia].
    destruct (nth_error ds' i) as [d |] eqn:Hd; [| apply nth_error_None in Hd; lia]. eauto. }
  assert (Own : forall i part p n, nth_error parts i = Some part -> nth_error (combine (constructNAFileNames f (length ds)) ds) i = Some p -> In n part -> n = fst p \/ lim <> None /\ volume_of (fst p) n).
  { intros i part p n Hi Hp I. destruct (Get i part Hi) as (p' & d & Hp' & Hd). rewrite Hp in Hp'. injection Hp' as <-. destruct (B i part p d Hi Hp Hd) as (A & _).
    unfold alone in A. destruct (one_effect fuel o nh lim (fst p) d) as (r & t & P & In1 & Ok1). rewrite P in A. cbn [fst] in A. apply In1, (Ok1 part A), I. }
  exists parts. do 3 (split; [assumption |]). split; [exact Fr |]. split.
  - intros i j part part' n Hi Hj I J. destruct (Get i part Hi) as (p & d & Hp & Hd). destruct (Get j part' Hj) as (q & e & Hq & He).
    exact (Sep i j p q n Hp Hq (Own i part p n Hi Hp I) (Own j part' q n Hj Hq J)).
  - intros i part d name Hi Hd Hn. destruct (Get i part Hi) as (p & d0 & Hp & Hd0). rewrite Hd in Hd0. injection Hd0 as <-. rewrite (Hf _ _ Hp) in Hn. injection Hn as <-.
    destruct (B i part p d Hi Hp Hd) as (A1 & A2). unfold alone in A1, A2. destruct (write_one fuel o nh lim (fst p) d []) as [r g]. cbn [fst snd] in A1, A2. subst r.
    exists g. split; [reflexivity |]. intros n I. destruct (A2 n I) as (T1 & T2). destruct (sd_get fs' n) as [t |]; [| congruence]. exists t. split; [reflexivity | congruence].
Qed.

(** ** Examples *)
(** Two dictionaries of three records, at most two records a file. *)
Definition two_tables : list (na whole) := [dict_of (items1001 s1001); upd (dict_of (items1001 s1001)) kMNAME (PStr (lit "Other"))].
Definition no_settings : settings (num := whole) := mkSettings RReplace false [].
Definition run (f : str) : Res (list str * list str) :=
  match writeNAFiles 9 no_settings opts_whole false (Some 2%Z) f two_tables [] with
  | (Ok (names, _), fs) => Ok (names, map fst fs)
  | (Err e, _) => Err e
  end.
Example C136_example : run (lit "dir/a.na") =
    Ok (map lit ["dir/a_1-001.na"; "dir/a_1-001.na"; "dir/a_1-002.na"; "dir/a_1-002.na"; "dir/a_2-001.na"; "dir/a_2-001.na"; "dir/a_2-002.na"; "dir/a_2-002.na"]%pylit,
        map lit ["dir/a_1-001.na"; "dir/a_1-002.na"; "dir/a_2-001.na"; "dir/a_2-002.na"]%pylit) /\ long_ending (lit "dir/a.na").
Proof.
  split; [vm_compute; reflexivity |]. exists (lit "na"). split; [intros I; vm_compute in I; intuition discriminate |]. split; [cbn; lia |]. right. exists (lit "dir/a"). reflexivity.
Qed.
(** With an ending of one character the second dictionary takes the names of the
    first one: two files are left of four. *)
Theorem C136_refuted : exists (ds : list (na whole)) f names ds' fs', length ds = 2 /\
  writeNAFiles 9 no_settings opts_whole false (Some 2%Z) f ds [] = (Ok (names, ds'), fs') /\
  names = map lit ["a_-001.na"; "a_-001.na"; "a_-002.na"; "a_-002.na"; "a_-001.na"; "a_-001.na"; "a_-002.na"; "a_-002.na"]%pylit /\
  map fst fs' = map lit ["a_-001.na"; "a_-002.na"]%pylit /\
  forall name d, nth_error (constructNAFileNames f 2) 0 = Some name -> nth_error ds' 0 = Some d ->
    sd_get fs' (lit "a_-001.na") <> sd_get (snd (write_one 9 opts_whole false (Some 2%Z) name d [])) (lit "a_-001.na").
Proof.
  exists two_tables, (lit "a.x").
  assert (T : match writeNAFiles 9 no_settings opts_whole false (Some 2%Z) (lit "a.x") two_tables [] with
    | (Ok (names, d :: _), fs') => names = map lit ["a_-001.na"; "a_-001.na"; "a_-002.na"; "a_-002.na"; "a_-001.na"; "a_-001.na"; "a_-002.na"; "a_-002.na"]%pylit /\
        map fst fs' = map lit ["a_-001.na"; "a_-002.na"]%pylit /\
        match sd_get fs' (lit "a_-001.na"), sd_get (snd (write_one 9 opts_whole false (Some 2%Z) (lit "a_1.x") d [])) (lit "a_-001.na") with
        | Some x, Some y => str_eqb x y = false | _, _ => False end
    | _ => False end) by (vm_compute; repeat split).
  destruct (writeNAFiles 9 no_settings opts_whole false (Some 2%Z) (lit "a.x") two_tables []) as [[[names [| d ds']] |] fs'] eqn:E; try contradiction.
  destruct T as (T1 & T2 & T3). exists names, (d :: ds'), fs'. split; [reflexivity |]. split; [reflexivity |]. split; [exact T1 |]. split; [exact T2 |].
  intros name d0 Hn Hd Q. vm_compute in Hn. injection Hn as <-. cbn in Hd. injection Hd as <-. change [97%N; 95%N; 49%N; 46%N; 120%N] with (lit "a_1.x") in Q. rewrite Q in T3.
  match type of T3 with match ?v with Some _ => _ | None => _ end => destruct v as [x |] end; [| exact T3]. rewrite (proj2 (str_eqb_eq x x) eq_refl) in T3. discriminate T3.
Qed.
Print Assumptions C136_partial.
Print Assumptions C136_refuted.
