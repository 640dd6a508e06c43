(** Property C147: the line of column headers in front of the data. *)
From Coq Require Import List NArith ZArith Bool Lia.
From Verif Require Import Py.Str Py.Res Py.Num Py.Arith Model.Dict Model.CommonUtils Model.NAWrite Model.NCWrite Model.Xarray Model.Collector Proofs.ReadFrame Proofs.StrLemmas Proofs.NumLemmas
  Proofs.TextLemmas Proofs.WriteFrame Proofs.WriteSim Proofs.Delim Proofs.LastLine Proofs.CollectorLemmas Proofs.CollectorFrame Spec.RowSpec Spec.WriteSpec Spec.ValuesSpec.
From Verif Require Import Props.WriteProps Props.CollectorProps Props.ValuesProps Props.CommentProps.
From Verif Require Proofs.ReadData Props.ConfigProps Props.ConverterProps Props.NcRoundTrip Spec.ColumnSpec.
Import ColumnSpec.
Import ListNotations.

Section Columns.
Context {num : Type} {Num : NumOps num} {Ar : ArithOps num}.
Local Notation na := (na num).
Local Notation pyv := (pyv num).

Lemma as_strs (l : list pyv) ss : mapR NACore.as_str l = Ok ss -> l = map PStr ss.
Proof.
  revert ss. induction l as [| v l IH]; intros ss E; cbn [mapR] in E; [injection E as <-; reflexivity |].
  destruct v; try discriminate E. cbn [NACore.as_str bindR] in E. destruct (mapR _ l) as [r |]; [| discriminate E]. injection E as <-. cbn. now rewrite (IH r eq_refl).
Qed.

(** With column headers the last comment of the dictionary to be written has the
    names of the first axis and of all variables, with commas between them. *)
Theorem C147_line : forall (s : settings (num := num)) (d d' : na) ffi n,
  st_headers s = true -> prepare s d = Ok d' -> d' kFFI = Some (PInt ffi) -> In ffi [1001; 2110]%Z -> d' kNAUXV = Some (PInt n) -> (n <= 0)%Z ->
  (exists xl vl, d' kXNAME = Some (PList xl) /\ d' kVNAME = Some (PList vl)) ->
  exists l x more vs, d' kXNAME = Some (PList (PStr x :: more)) /\ d' kVNAME = Some (PList (map PStr vs)) /\
    d' kNCOM = Some (PList (l ++ [PStr (join (lit ",") (x :: vs))])) /\ d' kNNCOML = Some (PInt (Z.of_nat (length l + 1))).
Proof.
  intros s d d' ffi n Hs P Hf I Hn Ln (xl & vl & Hx & Hv). unfold prepare in P. bindE P d1 P1. rewrite Hs in P.
  pose proof (ConfigProps.headers_only_comments _ _ P) as K. rewrite K in Hf, Hn, Hx, Hv by (cbn; intuition discriminate).
  rewrite !K by (cbn; intuition discriminate). unfold updateWithColumnHeaders, get in P. rewrite Hf, Hn in P. cbn [of_opt bindR] in P.
  assert (Q : existsb (Z.eqb ffi) [1001; 1010; 2110]%Z = true) by (destruct I as [<- | [<- | []]]; reflexivity).
  rewrite Q in P. cbn [as_int bindR] in P. assert (Q2 : (0 <? n)%Z = false) by (apply Z.ltb_ge; lia). rewrite Q2 in P. cbn [negb] in P.
  bindE P a Pa. assert (Pa' : (do xname <- of_opt EKeyError (d1 kXNAME); do x <- index xname 0; do s <- NACore.as_str x; Ok [s])%res = Ok a) by (destruct I as [<- | [<- | []]]; exact Pa).
  clear Pa. bindE Pa' xn Px. bindE Pa' x Pi. bindE Pa' t Pt. injection Pa' as <-. bindE P vn Pv. bindE P ns Pn. bindE P ss Ps. bindE P nc Pc. bindE P nc' Pc'. bindE P l Pl. injection P as <-.
  rewrite Hv in Pv. injection Pv as <-. cbn [as_list] in Pn. injection Pn as <-. apply as_strs in Ps as ->.
  destruct nc; try discriminate Pc'. injection Pc' as <-. injection Pl as <-.
  rewrite Hx in Px. injection Px as <-. destruct xl as [| v xs]; [discriminate Pi |]. injection Pi as <-. destruct v; try discriminate Pt. injection Pt as ->.
  exists l0, t, xs, ss. split; [exact Hx |]. split; [exact Hv |]. split.
  - rewrite upd_other by discriminate. rewrite upd_same. reflexivity.
  - rewrite upd_same. rewrite app_length. reflexivity.
Qed.

(** ** The file *)
Section File.
Variable o : opts num.
Hypothesis plain : o_annot o = false.
Hypothesis solid_texts : solid_numbers o.
Hypothesis delim : blank_or_comma (o_delim o).

Lemma cat_inv {A} (l : list A) (f : A -> Res pyv) s : cat_items o l f = Ok s ->
  exists ts, s = concat (map (fun i => i ++ o_delim o) ts) /\ Forall2 (fun a t => exists v, f a = Ok v /\ fmt_f (o_fmt o) v = Ok t) l ts.
Proof.
  unfold cat_items. intros E. bindE E ss Es. injection E as <-. revert ss Es. induction l as [| a l IH]; intros ss Es; cbn [mapR] in Es.
  - injection Es as <-. exists []. split; [reflexivity | constructor].
  - bindE Es u Eu. bindE Es us Eus. injection Es as <-. destruct (IH _ Eus) as (ts & Q & F). bindE Eu v Ev. unfold fmt_item in Eu. bindE Eu t Et. injection Eu as <-.
    exists (t :: ts). split; [cbn [map concat]; rewrite Q; reflexivity |]. constructor; [eauto | exact F].
Qed.
Lemma solid_text v t : fmt_f (o_fmt o) v = Ok t -> solid t.
Proof. destruct v; cbn; intros E; try discriminate E; injection E as <-; apply solid_texts. Qed.
Lemma Forall2_seq {A B} (P : nat -> B -> Prop) (Q : A -> B -> Prop) (l : list A) : forall k ts, Forall2 P (seq k (length l)) ts ->
  (forall i a t, nth_error l i = Some a -> P (k + i)%nat t -> Q a t) -> Forall2 Q l ts.
Proof.
  induction l as [| a l IH]; intros k ts F K; cbn [length seq] in F; inversion F; subst; constructor.
  - apply (K 0%nat); [reflexivity |]. rewrite Nat.add_0_r. assumption.
  - apply (IH (S k)); [assumption |]. intros i b t E P1. apply (K (S i)); [exact E |]. rewrite Nat.add_succ_r. exact P1.
Qed.

Lemma data_rows (d : na) t : is_table d t -> forall ms s s',
  forW ms (fun m => xs <- liftW (cat_items o [m] (fun m => index (attr d kX) m));; nv <- self_int kNV;; V <- self kV;;
    vs <- liftW (cat_items o (range nv) (fun n => index2 V n m));; write_data_line o (xs ++ vs))%W s = (Ok tt, s') -> w_na s = d ->
  exists rows, w_file s' = w_file s ++ rows_text (o_delim o) rows /\ Forall2 (row_of (o_fmt o) t) ms rows.
Proof.
  intros (_ & _ & Hx & Hn & _ & Hv & _). induction ms as [| m ms IH]; intros s s' E D; cbn [forW] in E.
  - injection E as <-. exists []. split; [cbn; rewrite app_nil_r; reflexivity | constructor].
  - unfold bindW at 1 in E. match type of E with (match ?m with _ => _ end) = _ => destruct m as [[[] | e] s1] eqn:E1; [| discriminate E] end.
    unfold bindW, liftW, self_int, self, bindW, liftW in E1. destruct (cat_items o [m] _) as [xs |] eqn:Ex; [| discriminate E1]. rewrite D, Hn, Hv in E1. cbn [as_int] in E1.
    destruct (cat_items o (range _) _) as [vs |] eqn:Ev; [| discriminate E1]. unfold write_data_line, wrapLine, annotateLine, bindW, liftW, fwrite in E1. rewrite plain in E1. injection E1 as <-.
    destruct (cat_inv _ _ _ Ex) as (t1 & -> & F1). destruct (cat_inv _ _ _ Ev) as (t2 & -> & F2).
    assert (S1 : Forall solid (t1 ++ t2)).
    { apply Forall_app. split; [clear - F1 solid_texts | clear - F2 solid_texts]; [induction F1 as [| a b la lb (v & _ & Q)] | induction F2 as [| a b la lb (v & _ & Q)]]; constructor; eauto using solid_text. }
    destruct (IH _ _ E) as (rows & Er & Fr); [exact D |]. exists ((t1 ++ t2) :: rows). split.
    + rewrite Er. cbn [w_file]. rewrite <- concat_app, <- map_app, rstrip_items by assumption. unfold rows_text. cbn [map concat]. rewrite <- !app_assoc. reflexivity.
    + constructor; [| exact Fr]. unfold row_of, columns. inversion F1 as [| a b la lb (v & Q1 & Q2) F0]; subst. inversion F0; subst. cbn [app]. constructor.
      * exists v. split; [| exact Q2]. rewrite Hx in Q1. cbn in Q1. unfold nth_res in Q1. destruct (nth_error (tb_values t) m); [exact (f_equal (fun r => match r with Ok a => Some a | Err _ => None end) Q1) | discriminate Q1].
      * unfold range in F2. rewrite Nat2Z.id, <- (map_length snd) in F2. apply (Forall2_seq _ _ _ _ _ F2). intros i col tx Ei (w & W1 & W2). exists w. split; [| exact W2].
        cbn [plus] in W1. unfold index2 in W1. cbn in W1. unfold nth_res in W1. rewrite nth_error_map in Ei. rewrite nth_error_map in W1. destruct (nth_error (tb_rest t) i) as [c |]; [| discriminate Ei]. cbn in Ei, W1. injection Ei as <-.
        unfold nth_res in W1. destruct (nth_error (snd c) m); [exact (f_equal (fun r => match r with Ok a => Some a | Err _ => None end) W1) | discriminate W1].
Qed.

(** The last line of the header has the names of the columns, and the data section
    has one row for each value of the independent variable, with the values of the
    columns in the order of the names. *)
Theorem C147_table : forall (s : settings (num := num)) (d d' : na) t h st,
  st_headers s = true -> prepare s d = Ok d' -> is_table d' t -> d' kNAUXV = Some (PInt 0) ->
  write_body o C1001 false (mkW [] h d') = (Ok tt, st) ->
  exists header n rows, w_file st = header ++ rows_text (o_delim o) rows /\ self_counting (o_delim o) [] (lit "1001") header n /\
    header_ends header (join (lit ",") (names t)) /\ rows_of (o_fmt o) t rows.
Proof.
  intros s d d' t h st Hs P T Hn W. pose proof T as (Hf & (more & Hx) & Tx & Tn & Tv & TV & Tl).
  assert (L : last_comment d' (join (lit ",") (names t))).
  { assert (Xs : d' kXNAME = Some (PList (PStr (tb_name t) :: more))) by (unfold attr in Hx; destruct (d' kXNAME); [congruence | discriminate Hx]).
    assert (Vs : d' kVNAME = Some (PList (map (fun c => PStr (fst c)) (tb_rest t)))) by (unfold attr in Tv; destruct (d' kVNAME); [congruence | discriminate Tv]).
    destruct (C147_line s d d' _ _ Hs P Hf (or_introl eq_refl) Hn (Z.le_refl 0)) as (l & x & mr & vs & A & B & C & _); [eauto |].
    rewrite Xs in A. injection A as <- _. rewrite Vs in B. injection B as B. exists l. unfold attr. rewrite C. unfold names. do 5 f_equal. cbn [join]. f_equal.
    assert (Q : map fst (tb_rest t) = vs); [| now rewrite Q]. clear - B. revert vs B. induction (tb_rest t) as [| c r IH]; intros [| v vs] B; try discriminate B; [reflexivity |]. injection B as B1 B. cbn. rewrite B1. f_equal. apply IH, B. }
  assert (Nd : ~ In c_nl (o_delim o)). { intros I. destruct (delim _ I) as [Q | Q]; discriminate Q. }
  destruct (C07_header_length o C1001 [] h d' st W Nd) as (pre & hdr & data & ann & ffi & n & s1 & t1 & Ef & SC & Ea & Effi & Hp & W1 & E1 & W2 & E2).
  { intros a. unfold getAnnotation. rewrite plain. intros Q. injection Q as <-. intros []. }
  rewrite Hp in * by (left; discriminate). cbn [app] in Ef, E1. unfold getAnnotation in Ea. rewrite plain in Ea. injection Ea as <-. unfold attr in Effi. rewrite Hf in Effi. injection Effi as <-.
  destruct (last_1001 o plain (mkW [] [] d') s1 _ W1 L) as (before & Eb & Hb). cbn [w_file app] in Eb.
  assert (D1 : w_na s1 = d').
  { exact (pure_header_1 o C1001 ltac:(cbn; auto) _ _ _ W1). }
  cbn [writeData] in W2. unfold writeData_1001 in W2. unfold bindW at 1 2, self at 1, liftW at 1 in W2. rewrite D1, Tx in W2. cbn [range_len as_list bindR] in W2. rewrite <- Tx in W2.
  destruct (data_rows d' t T _ _ _ W2 D1) as (rows & Er & Fr).
  exists hdr, n, rows. split; [rewrite Ef; f_equal; rewrite E2 in Er; apply app_inv_head in Er; exact Er |]. split; [exact SC |]. split.
  - exists before. split; [rewrite <- E1; exact Eb | exact Hb].
  - split; [rewrite <- (seq_length (length (tb_values t)) 0); symmetry; clear - Fr; induction Fr; cbn; congruence |].
    intros m row E. clear - Fr E. assert (Q : forall k n rows, Forall2 (row_of (o_fmt o) t) (seq k n) rows -> nth_error rows m = Some row -> row_of (o_fmt o) t (k + m) row).
    { clear. induction m as [| m IH]; intros k n rows F E; destruct n as [| n]; inversion F; subst; try discriminate E; cbn in E.
      - injection E as <-. rewrite Nat.add_0_r. assumption.
      - rewrite Nat.add_succ_r. apply (IH (S k) n l'); assumption. }
    exact (Q 0%nat _ _ Fr E).
Qed.
End File.

(** In a CSV file the names are the first line of a table: it has the same number
    of items as every row. *)
Theorem C147_csv_partial : forall (o : opts num) (s : settings (num := num)) (d d' : na) t h st,
  o_annot o = false -> solid_numbers o -> o_delim o = lit "," -> (forall x, ~ In c_comma (o_fmt o x)) ->
  st_headers s = true -> prepare s d = Ok d' -> is_table d' t -> d' kNAUXV = Some (PInt 0) ->
  (forall name, In name (names t) -> ~ In c_comma name /\ ~ In c_nl name) ->
  write_body o C1001 false (mkW [] h d') = (Ok tt, st) ->
  exists before rows n rest, w_file st = before ++ rows_text (lit ",") (names t :: rows) /\ rows_of (o_fmt o) t rows /\
    before = dec_of_nat n ++ lit ",1001" ++ rest /\ whole_lines before /\ count_chr c_nl before = (n - 1)%nat /\
    Forall (fun row => length row = length (names t) /\ forall item, In item row -> ~ In c_comma item) (names t :: rows).
Proof.
  intros o s d d' t h st Ha Hs Hd Hc Hh P T Hn Nm W.
  assert (B : blank_or_comma (o_delim o)) by (rewrite Hd; intros c [<- | []]; right; reflexivity).
  destruct (C147_table o Ha Hs B s d d' t h st Hh P T Hn W) as (header & n & rows & E & ((body & C1) & _ & C2) & (before & -> & (u & Hb)) & R).
  rewrite Hd in E, C1. exists before, rows, n.
  assert (Nn : count_chr c_nl (join (lit ",") (names t)) = 0%nat).
  { apply count_chr_mem. apply (mem_concat_join (lit ",")); [reflexivity |]. clear - Nm. induction (names t) as [| a l IH]; [reflexivity |]. cbn [concat]. rewrite mem_chr_app.
    rewrite IH by (intros; apply Nm; right; assumption). destruct (Nm a (or_introl eq_refl)) as (_ & N). apply mem_chr_false in N. rewrite N. reflexivity. }
  assert (Cn : count_chr c_nl before = (n - 1)%nat). { rewrite !count_chr_app, Nn in C2. cbn in C2. lia. }
  assert (Q : exists rest, before = dec_of_nat n ++ lit ",1001" ++ rest).
  { change ([] ++ dec_of_nat n ++ lit "," ++ lit "1001" ++ [c_nl] ++ body) with (dec_of_nat n ++ lit "," ++ lit "1001" ++ nl ++ body) in C1.
    destruct (first_nl (dec_of_nat n ++ lit "," ++ lit "1001") body before (join (lit ",") (names t) ++ [c_nl])) as (p' & Q & _).
    - rewrite !mem_chr_app. assert (Z0 : mem_chr c_nl (dec_of_nat n) = false); [| rewrite Z0; reflexivity].
      apply mem_chr_false. rewrite dec_of_nat_Z. intros Hi. pose proof (proj1 (forallb_forall _ _) (dec_of_Z_chars (Z.of_nat n)) _ Hi). discriminate.
    - rewrite <- !app_assoc. symmetry. exact C1.
    - rewrite Hb, mem_chr_app. cbn. apply orb_true_r.
    - exists (nl ++ p'). rewrite Q, <- !app_assoc. reflexivity. }
  destruct Q as (rest & Q). exists rest. split; [rewrite E; unfold rows_text; cbn [map concat]; rewrite <- !app_assoc; reflexivity |]. split; [exact R |]. split; [exact Q |]. split; [exists u; exact Hb |]. split; [exact Cn |].
  constructor; [split; [reflexivity |]; intros item I; exact (proj1 (Nm _ I)) |].
  apply Forall_forall. intros row I. apply In_nth_error in I as (m & I). destruct R as (_ & R). specialize (R m row I). unfold row_of in R. split.
  - transitivity (length (columns t)); [symmetry; exact (ReadData.Forall2_len _ _ _ R) | unfold names, columns; cbn [length]; rewrite !map_length; reflexivity].
  - clear - R Hc. induction R as [| col tx cols txs (v & _ & Q) F IH]; intros item []; [subst | auto]. destruct v; cbn in Q; try discriminate Q; injection Q as <-; apply Hc.
Qed.

(** ** Converted dictionaries *)
Lemma override_rest r (d d' : na) p k : override r d p = Ok d' -> ~ In (fst p) [kNCOM; kVNAME] -> In k [kFFI; kNAUXV; kXNAME; kVNAME; kNCOM; kNNCOML] -> d' k = d k.
Proof.
  destruct p as [k0 v]. cbn [fst]. intros E N I. unfold override in E. destruct (NCWrite.key_in k0 permitted) eqn:Pk; cbn [negb] in E; [| injection E as <-; reflexivity].
  destruct (if NCWrite.key_in k0 _ then _ else _) as [new |]; [| discriminate E]. cbn [bindR] in E.
  assert (Ik : In k0 permitted). { unfold NCWrite.key_in in Pk. apply existsb_exists in Pk as (k' & J & B). apply key_beq_true in B. subst k'. exact J. }
  assert (Ne : k0 <> k). { intros ->. cbn in Ik, I, N. intuition congruence. }
  assert (U : Ok (upd d k0 new) = Ok d' -> d' k = d k) by (intros Q; injection Q as <-; apply upd_other; exact Ne).
  destruct k0; first [exact (U E) | destruct N; left; reflexivity | clear U]. cbn [key_beq] in E. bindE E cm Ec. bindE E l El. injection E as <-. rewrite !upd_other; [reflexivity | exact Ne |]. intros <-. cbn in I. intuition discriminate.
Qed.
Lemma overrides_rest r l : forall (d d' : na) k, forR l (fun p d => override r d p) d = Ok d' -> (forall p, In p l -> ~ In (fst p) [kNCOM; kVNAME]) ->
  In k [kFFI; kNAUXV; kXNAME; kVNAME; kNCOM; kNNCOML] -> d' k = d k.
Proof.
  induction l as [| p l IH]; intros d d' k E N I; cbn [forR] in E; [injection E as <-; reflexivity |]. bindE E d1 E1.
  rewrite (IH _ _ _ E (fun q Q => N q (or_intror Q)) I). exact (override_rest _ _ _ _ _ E1 (N p (or_introl eq_refl)) I).
Qed.
End Columns.
Print Assumptions C147_line.
Print Assumptions C147_table.
Print Assumptions C147_csv_partial.

(** The FFI of a converted dictionary; it is never 1010. *)
Lemma analyse_1010 num (Num : NumOps num) (Ar : ArithOps num) (E : env num) req (vars : list (xvar num)) a : analyseVariables E req vars = Ok (Some a) -> a_ffi a <> 1010%Z.
Proof.
  intros R Q. destruct (analyse_inv E _ _ _ R) as (i & best & lim & s & _ & _ & Rb & H2 & _ & _ & _ & _ & Hn & H5 & L2 & L1 & _). rewrite Q in H5.
  assert (L : s_limited s = lim \/ s_limited s = Some [1020%Z]).
  { refine (forR_inv (fun s => s_limited s = lim \/ s_limited s = Some [1020%Z]) _ _ _ _ _ H2 (or_introl eq_refl)).
    intros v t t' _ Q' P. destruct (sort_limited _ _ _ _ _ Q') as [-> | ->]; auto. }
  assert (L' : forall l, s_limited s = Some l -> ~ In 1010%Z l).
  { intros l El J. destruct L as [L | L]; rewrite L in El; [| injection El as <-; cbn in J; intuition discriminate]. subst lim.
    destruct (Nat.eq_dec (rank best) 2) as [K | K]; [| rewrite (L1 K) in El; discriminate El]. destruct (L2 K) as (l' & E' & Inc). rewrite El in E'. injection E' as <-. specialize (Inc _ J). cbn in Inc. intuition discriminate. }
  unfold decideFileFormatIndex in H5. cbv zeta in H5.
  destruct (if truthy req then s_limited s else None) as [l |] eqn:El.
  - destruct (existsb (Z.eqb match req with Some z => z | None => 0%Z end) l) eqn:X; [| discriminate H5]. injection H5 as H5. rewrite H5 in X. apply existsb_exists in X as (z & J & X). apply Z.eqb_eq in X. subst z.
    destruct (truthy req); [exact (L' l El J) | discriminate El].
  - bindE H5 ffi D. assert (F : ffi = 1010%Z) by (destruct (truthy req && negb _); [discriminate H5 | congruence]). subst ffi. clear H5.
    destruct (4 <? rank best)%nat eqn:K4; [discriminate D |]. destruct (2 <? rank best)%nat eqn:K2.
    { apply Nat.ltb_lt in K2. assert (D' : (10 + Z.of_nat (rank best) * 1000)%Z = 1010%Z) by congruence. lia. }
    destruct (rank best =? 2)%nat eqn:K; [destruct (existsb (Z.eqb _) [2010; 2110; 2310]%Z) eqn:X; [injection D as D; rewrite D in X; discriminate X | discriminate D] |].
    apply Nat.ltb_ge in K2. apply Nat.eqb_neq in K. rewrite (rank_one E _ _ _ R) in D by lia. discriminate D.
Qed.
Lemma converted_ffi num (Num : NumOps num) (Ar : ArithOps num) (E : env num) req globals (vars : list (xvar num)) cs c d :
  ~ In (lit "file_format_index") (map fst globals) -> convert E req globals vars = Ok (Some cs) -> In c cs -> c_na c = Some d ->
  exists vs a, analyseVariables E req vs = Ok (Some a) /\ d kFFI = Some (PInt (a_ffi a)).
Proof.
  intros Ng R I Nd. destruct (convert_each E _ _ _ _ _ R I) as (vs & C & _ & _).
  destruct (collect_steps E _ _ _ _ _ C Nd) as (a & d1 & d2 & g & d3 & v0 & ax0 & Ha & H1 & H2 & Hg & H3 & _ & _ & Ed & _ & _).
  assert (Gf : gs_na g kFFI = d2 kFFI).
  { unfold defineNAGlobals in Hg.
    refine (forR_inv (fun g => gs_na g kFFI = d2 kFFI) _ _ _ _ _ Hg eq_refl).
    intros x s s' Ix Q P. rewrite <- P. apply (item_ffi E x s s'); [| exact Q]. intros Q'. apply Ng. rewrite <- Q'. apply in_map, Ix. }
  exists vs, a. split; [exact Ha |].
  rewrite Ed, (same_header E ax0 d3 kFFI) by (cbn; intuition discriminate). rewrite (comments_frame _ _ _ _ H3 kFFI) by (cbn; intuition discriminate).
  rewrite Gf, (same_aux E _ _ _ H2 kFFI) by (cbn; intuition discriminate). rewrite (same_vars E _ _ _ _ _ H1 kFFI) by (cbn; intuition discriminate). reflexivity.
Qed.

(** Every dictionary of FFI 1001 made from xarray variables gets one more normal
    comment, with the name of the axis and the names of all its variables; if
    neither the comments nor the names are given by the user, all else about these
    stays. *)
Theorem C147_converted : forall num (Num : NumOps num) (Ar : ArithOps num) (E : env num) req globals (vars : list (xvar num)) cs c d (s : settings (num := num)) d',
  ~ In (lit "file_format_index") (map fst globals) ->
  convert E req globals vars = Ok (Some cs) -> In c cs -> c_na c = Some d -> d kFFI = Some (PInt 1001) ->
  st_headers s = true -> (forall p, In p (st_overriders s) -> ~ In (fst p) [kNCOM; kVNAME]) -> prepare s d = Ok d' ->
  exists v rest a x vs ncom, c_main c = v :: rest /\ v_axes v = [a] /\ getBestName (ax_info a) = Ok x /\ Forall2 (fun w n => getBestName (v_info w) = Ok n) (c_main c) vs /\
    d kNCOM = Some (PList (map PStr ncom)) /\ d' kNCOM = Some (PList (map PStr (ncom ++ [join (lit ",") (x :: vs)]))) /\
    d' kNNCOML = Some (PInt (Z.of_nat (length ncom + 1))).
Proof.
  intros num Num Ar E req globals vars cs c d s d' Ng R I Nd Hf Hs Ho P.
  destruct (C75_values _ _ _ E _ _ _ _ _ R I) as (dd & es & Nd' & F & _ & Vn & _). rewrite Nd in Nd'. injection Nd' as <-.
  destruct (C52_counts _ _ _ E _ _ _ _ _ R I) as (dd & scom & ncom & Nd' & _ & _ & _ & C1 & C2 & _). rewrite Nd in Nd'. injection Nd' as <-.
  destruct (C75_auxiliary _ _ _ E _ _ _ _ _ R I) as (dd & es' & ln & lm & ls & lv & Nd' & _ & _ & _ & _ & _ & _ & _ & _ & _ & Na). rewrite Nd in Nd'. injection Nd' as <-.
  destruct (c_main c) as [| v rest] eqn:Em.
  { exfalso. destruct (convert_each E _ _ _ _ _ R I) as (vs & C & _ & _). destruct (collect_steps E _ _ _ _ _ C Nd) as (a & d1 & d2 & g & d3 & v0 & ax0 & Ha & H1 & H2 & Hg & H3 & Hv & _ & _ & Em' & _).
    rewrite Em in Em'. rewrite <- Em' in Hv. discriminate Hv. }
  destruct (C77_axes _ _ _ E _ _ _ _ _ _ _ _ _ Ng R I Em Nd Hf) as (a & more & xn & Va & Xn & Fx & X1 & _). destruct (X1 eq_refl) as (-> & _). clear X1.
  rewrite Va in Fx. inversion Fx as [| ? ? ? ? (x & Hx & ->) Fx']; subst. inversion Fx'; subst. clear Fx Fx'.
  assert (Aux : c_aux c = []).
  { destruct (c_aux c) as [| w aux] eqn:Ea; [reflexivity |]. exfalso.
    assert (Q := C51_auxiliary _ _ _ E _ _ _ _ _ w v R I). rewrite Ea, Em in Q. specialize (Q (or_introl eq_refl) (or_introl eq_refl)). rewrite Va in Q. cbn in Q. lia. }
  assert (Na' : attr d kNAUXV = PInt 0) .
  { destruct (converted_ffi _ _ _ E _ _ _ _ _ _ Ng R I Nd) as (xs & an & An & Hf'). rewrite Hf in Hf'. injection Hf' as Hf'.
    rewrite Na, Aux, (described_ffi E _ _ _ An), <- Hf'. reflexivity. }
  unfold attr in Na', Vn, Xn. destruct (d kNAUXV) as [na |] eqn:Da; [| discriminate Na']. destruct (d kVNAME) as [vn |] eqn:Dv; [| discriminate Vn]. destruct (d kXNAME) as [xn |] eqn:Dx; [| discriminate Xn]. subst na vn xn.
  assert (Q : exists vs, ValuesSpec.names es = map PStr vs /\ Forall2 (fun w n => getBestName (v_info w) = Ok n) (v :: rest) vs).
  { clear - F. induction F as [| w e l es H F (vs & Q & G)]; [exists []; split; [reflexivity | constructor] |]. destruct e as [[[nm ms] sc] vl]. destruct H as ((n & Hn & ->) & _).
    exists (n :: vs). split; [unfold ValuesSpec.names in *; cbn; rewrite Q; reflexivity | constructor; assumption]. }
  destruct Q as (vs & Q & G). exists v, rest, a, x, vs, ncom. split; [reflexivity |]. split; [exact Va |]. split; [exact Hx |]. split; [exact G |]. split; [exact C1 |].
  unfold prepare in P. bindE P d1 P1. rewrite Hs in P. assert (K := fun k => overrides_rest _ _ _ _ k P1 Ho).
  assert (W := ConverterProps.headers_line d1 1001 true (x :: vs) (map PStr ncom)). cbn [tl] in W. rewrite W in P; clear W.
  - injection P as <-. rewrite !upd_same, upd_other, upd_same, map_app, map_length by discriminate. split; [reflexivity |]. do 3 f_equal. lia.
  - rewrite K by (cbn; tauto). exact Hf.
  - left. reflexivity.
  - rewrite K by (cbn; tauto). exact Da.
  - rewrite K by (cbn; tauto). exact C1.
  - intros y _ _ <-. exists []. rewrite K by (cbn; tauto). exact Dx.
  - rewrite K by (cbn; tauto). rewrite Dv, Q. reflexivity.
  - discriminate.
Qed.
Print Assumptions C147_converted.

(** No line is added to dictionaries of other formats: FFI 1010 is never made, and
    FFI 2110 always with an auxiliary variable. *)
Theorem C147_others : forall num (Num : NumOps num) (Ar : ArithOps num) (E : env num) req globals (vars : list (xvar num)) cs c d (s : settings (num := num)) ffi,
  ~ In (lit "file_format_index") (map fst globals) ->
  convert E req globals vars = Ok (Some cs) -> In c cs -> c_na c = Some d -> d kFFI = Some (PInt ffi) -> ffi <> 1001%Z ->
  (forall p, In p (st_overriders s) -> ~ In (fst p) [kNCOM; kVNAME]) ->
  prepare s d = prepare (mkSettings (st_rule s) false (st_overriders s)) d.
Proof.
  intros num Num Ar E req globals vars cs c d s ffi Ng R I Nd Hf N1 Ho.
  destruct (converted_ffi _ _ _ E _ _ _ _ _ _ Ng R I Nd) as (xs & an & An & Hf'). rewrite Hf in Hf'. injection Hf' as Hf'. assert (N2 := analyse_1010 _ _ _ E _ _ _ An). rewrite <- Hf' in N2.
  destruct (C75_auxiliary _ _ _ E _ _ _ _ _ R I) as (dd & es' & ln & lm & ls & lv & Nd' & _ & _ & _ & _ & _ & _ & _ & _ & _ & Na). rewrite Nd in Nd'. injection Nd' as <-.
  unfold prepare. cbn [st_overriders st_rule st_headers]. destruct (forR _ _ d) as [d1 | e] eqn:P1; [| reflexivity]. cbn [bindR]. destruct (st_headers s); [| reflexivity].
  assert (K := fun k => overrides_rest _ _ _ _ k P1 Ho). unfold updateWithColumnHeaders, get. rewrite (K kFFI) by (cbn; tauto). rewrite (K kNAUXV) by (cbn; tauto). rewrite Hf. cbn [of_opt bindR].
  destruct (Z.eq_dec ffi 2110) as [-> | N3].
  - rewrite (described_ffi E _ _ _ An), <- Hf' in Na. change (if (2110 =? 2110)%Z then 1%nat else if (2110 =? 2310)%Z then 3%nat else 0%nat) with 1%nat in Na.
    unfold attr in Na. destruct (d kNAUXV) as [na |]; [| discriminate Na]. subst na. cbn [of_opt bindR existsb Z.eqb Pos.eqb orb as_int].
    assert (L : (0 <? Z.of_nat (1 + length (c_aux c)))%Z = true) by (apply Z.ltb_lt; lia). rewrite L. reflexivity.
  - assert (X : existsb (Z.eqb ffi) [1001; 1010; 2110]%Z = false). { cbn. destruct (Z.eqb_spec ffi 1001); [contradiction |]. destruct (Z.eqb_spec ffi 1010); [contradiction |]. destruct (Z.eqb_spec ffi 2110); [contradiction | reflexivity]. }
    rewrite X. reflexivity.
Qed.
Print Assumptions C147_others.

From Verif Require Import Spec.WholeNum.
Import NcRoundTrip.
(** ** Examples *)
(** Two variables on one axis: columns t, q and r. *)
Definition rw : xvar wnan := mkVar (mkNamed (lit "r") [] []) [tw] (PList (map PNum (ws [1; 2; 3]%Z))) None None.
Definition with_delimiter (delim : str) : opts wnan := mkOpts delim wnan_g false (fun _ => None).
Definition tqr : ColumnSpec.table wnan :=
  mkTable (lit "t") (map PNum (ws [10; 20; 40]%Z))
    [(lit "q", map PNum [Num (Whole 5); Num (Whole (-99)); Num (Whole 7)]); (lit "r", map PNum (ws [1; 2; 3]%Z))].
Lemma wnan_solid delim : solid_numbers (with_delimiter delim).
Proof. intros [[z] |]; [exact (DelimProps.dec_solid z) | exists (lit "na"), 110%N; repeat split; discriminate]. Qed.
Lemma wnan_no_comma x : ~ In c_comma (wnan_g x).
Proof.
  destruct x as [[z] |]; [| cbn; intuition discriminate]. cbn. intros I. pose proof (proj1 (forallb_forall _ _) (dec_of_Z_chars z) _ I). discriminate.
Qed.
(** These variables are converted, and written with any of the two delimiters. *)
Example C147_premises : forall delim, In delim [lit ","; lit "    "] ->
  exists cs c d d' st, convert env_w None (gl (lit "Test")) [qw; rw] = Ok (Some cs) /\ In c cs /\ c_na c = Some d /\ d kFFI = Some (PInt 1001) /\
    prepare (ConverterProps.plain_settings true) d = Ok d' /\ is_table d' tqr /\ d' kNAUXV = Some (PInt 0) /\
    write_body (with_delimiter delim) C1001 false (mkW [] [] d') = (Ok tt, st).
Proof.
  intros delim I. destruct (convert env_w None (gl (lit "Test")) [qw; rw]) as [[cs |] |] eqn:C; vm_compute in C; try discriminate C. injection C as <-.
  destruct I as [<- | [<- | []]].
  all: eexists; eexists; eexists; eexists; eexists; split; [reflexivity |]; split; [left; reflexivity |]; split; [reflexivity |]; split; [reflexivity |]; split; [vm_compute; reflexivity |].
  all: split; [| split; [vm_compute; reflexivity | vm_compute; reflexivity]].
  all: split; [vm_compute; reflexivity |]; split; [exists []; vm_compute; reflexivity |]; repeat (split; [vm_compute; reflexivity |]); repeat constructor.
Qed.
(** The file with commas, from the names on, and the names of these columns. *)
Example C147_example :
  (match convert env_w None (gl (lit "Test")) [qw; rw] with
   | Ok (Some [c]) => match c_na c with
     | Some d => match prepare (ConverterProps.plain_settings true) d with
       | Ok d' => exists before, w_file (snd (write_body (with_delimiter (lit ",")) C1001 false (mkW [] [] d'))) =
           before ++ lit "t,q,r" ++ nl ++ lit "10,5,1" ++ nl ++ lit "20,-99,2" ++ nl ++ lit "40,7,3" ++ nl
       | _ => False end
     | None => False end
   | _ => False end) /\ names tqr = map lit ["t"; "q"; "r"]%pylit /\
  forall name, In name (names tqr) -> ~ In c_comma name /\ ~ In c_nl name.
Proof.
  split; [| split; [reflexivity |]].
  - vm_compute. match goal with |- exists b, ?l = _ => exists (firstn (length l - 29) l) end. vm_compute. reflexivity.
  - cbn. intros name [<- | [<- | [<- | []]]]; split; cbn; intros H; repeat destruct H as [H | H]; try discriminate H; exact H.
Qed.

(** The line is not separated by the delimiter of the file: with the delimiter
    that is the default, four spaces, the names have commas between them. *)
Theorem C147_refuted : exists num (Num : NumOps num) (Ar : ArithOps num) (E : env num) globals (vars : list (xvar num)) cs c d (s : settings (num := num)) d' t (o : opts num) h st header n rows line,
  o_delim o = lit "    " /\ o_annot o = false /\ st_headers s = true /\
  convert E None globals vars = Ok (Some cs) /\ In c cs /\ c_na c = Some d /\ prepare s d = Ok d' /\ is_table d' t /\ d' kNAUXV = Some (PInt 0) /\
  write_body o C1001 false (mkW [] h d') = (Ok tt, st) /\
  w_file st = header ++ rows_text (o_delim o) rows /\ self_counting (o_delim o) [] (lit "1001") header n /\ rows_of (o_fmt o) t rows /\
  header_ends header line /\ line <> join (o_delim o) (names t).
Proof.
  destruct (C147_premises (lit "    ")) as (cs & c & d & d' & st & C & I & Nd & Hf & P & T & Hn & W); [right; left; reflexivity |].
  assert (B : blank_or_comma (o_delim (with_delimiter (lit "    ")))) by (intros x [<- | [<- | [<- | [<- | []]]]]; left; reflexivity).
  destruct (C147_table (with_delimiter (lit "    ")) eq_refl (wnan_solid _) B (ConverterProps.plain_settings true) d d' tqr [] st eq_refl P T Hn W) as (header & n & rows & Q1 & Q2 & Q3 & Q4).
  exists wnan, _, _, env_w, (gl (lit "Test")), [qw; rw], cs, c, d, (ConverterProps.plain_settings true), d', tqr, (with_delimiter (lit "    ")), [], st, header, n, rows, (join (lit ",") (names tqr)).
  repeat (split; [first [reflexivity | assumption] |]). vm_compute. discriminate.
Qed.
Print Assumptions C147_refuted.

(** A variable of two dimensions has FFI 2010, and no line. *)
Example C147_others_example : exists cs c d ffi, convert env_w None (gl (lit "Test")) [ConverterProps.grid_var] = Ok (Some cs) /\ In c cs /\ c_na c = Some d /\ d kFFI = Some (PInt ffi) /\
  ffi <> 1001%Z /\ ~ In (lit "file_format_index") (map fst (gl (num := wnan) (lit "Test"))).
Proof.
  destruct (convert env_w None (gl (lit "Test")) [ConverterProps.grid_var]) as [[cs |] |] eqn:C; vm_compute in C; try discriminate C. injection C as <-.
  do 4 eexists. split; [reflexivity |]. split; [left; reflexivity |]. split; [reflexivity |]. split; [reflexivity |]. split; [discriminate |].
  intros Q. repeat destruct Q as [Q | Q]; vm_compute in Q; solve [discriminate Q | exact Q].
Qed.
