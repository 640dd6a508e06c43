(** Reading the first lines of a data section, and then the others. *)
From Coq Require Import List NArith ZArith Bool Lia.
From Verif Require Import Py.Str Py.Res Py.Num Model.Dict Model.TextParser Model.CommonUtils
  Model.NARead Spec.TextSpec Spec.ReadSpec Spec.CutSpec Proofs.StrLemmas Proofs.NumLemmas Proofs.TextLemmas Proofs.ReadData.
Import ListNotations.

(** ** Lines of a text in two parts *)
Lemma lines_app_nl a b : lines (a ++ nl ++ b) = lines (a ++ nl) ++ lines b.
Proof.
  induction a as [|c a IH]; cbn [app lines].
  - change (nl ++ b) with (c_nl :: b). change nl with [c_nl]. cbn [lines]. now rewrite N.eqb_refl.
  - destruct (c =? c_nl)%N.
    + cbn [app]. now rewrite IH.
    + rewrite IH. destruct (lines (a ++ nl)) as [|l ls] eqn:E; [|reflexivity].
      exfalso. destruct a as [|x a]; cbn in E; [discriminate|]. destruct (x =? c_nl)%N; [discriminate|]. destruct (lines (a ++ nl)); discriminate.
Qed.
Lemma univ_app_nl a b : univ_newlines (a ++ nl ++ b) = univ_newlines (a ++ nl) ++ univ_newlines b.
Proof.
  induction a as [|c a IH].
  - reflexivity.
  - cbn [app univ_newlines]. destruct (c =? c_cr)%N.
    + replace (starts_nl (a ++ nl ++ b)) with (starts_nl (a ++ nl)) by (destruct a; reflexivity).
      destruct (starts_nl (a ++ nl)); [exact IH|]. cbn [app]. now rewrite IH.
    + cbn [app]. now rewrite IH.
Qed.
Lemma univ_nl a : exists u, univ_newlines (a ++ nl) = u ++ nl.
Proof.
  induction a as [|c a IH]; [exists []; reflexivity|]. destruct IH as [u IH]. cbn [app univ_newlines].
  destruct (c =? c_cr)%N.
  - destruct (starts_nl (a ++ nl)); [eauto|]. rewrite IH. exists (c_nl :: u). reflexivity.
  - rewrite IH. exists (c :: u). reflexivity.
Qed.
Lemma readlines_cut a b : whole_lines a -> readlines (a ++ b) = readlines a ++ readlines b.
Proof.
  intros [-> | [u ->]]; [reflexivity|]. unfold readlines. rewrite <- app_assoc, univ_app_nl.
  destruct (univ_nl u) as [v ->]. rewrite <- app_assoc. apply lines_app_nl.
Qed.
Lemma check_app a b x y : checkForBlankLines false a = Ok x -> checkForBlankLines false (a ++ b) = Ok y -> exists z, y = x ++ z.
Proof.
  revert x y. induction a as [|l a IH]; intros x y; cbn [checkForBlankLines app].
  - intros [= <-] _. exists y. reflexivity.
  - destruct (is_nil (strip l)).
    + intros E _. assert (x = []) as ->; [|exists y; reflexivity]. clear -E. revert x E.
      induction a as [|k a IH]; intros x; cbn [checkForBlankLines]; [congruence|]. destruct (is_nil (strip k)); [apply IH|discriminate].
    + intros E E'. inv_bind E. inv_bind E'. injection E as <-. injection E' as <-. destruct (IH _ _ eq_refl eq_refl) as [z ->]. exists z. reflexivity.
Qed.

Section Cut.
Context {num : Type} `{NumOps num}.
Local Notation pyv := (pyv num).

(** ** More lines behind those that are used change nothing *)
Lemma unknown_app eof n it ex ls more r e rest : unknown_loop eof n it ex ls = Ok (r, e, rest) ->
  unknown_loop eof n it ex (ls ++ more) = Ok (r, e, rest ++ more).
Proof.
  revert it ex. induction ls as [|l ls IH]; intros it ex.
  - cbn [unknown_loop app]. destruct (Z.of_nat (length it) <? n)%Z eqn:El; [discriminate|]. intros [= <- <- <-]. destruct more; cbn [unknown_loop]; now rewrite El.
  - cbn [unknown_loop app]. destruct (Z.of_nat (length it) <? n)%Z eqn:El; [apply IH|]. intros [= <- <- <-]. reflexivity.
Qed.
Lemma items_app ls n t (vs : list pyv) rest more : items_from ls n t = Ok (vs, rest) -> items_from (ls ++ more) n t = Ok (vs, rest ++ more).
Proof.
  unfold items_from, readItemsFromUnknownLines. intros E. inv_bind E. destruct a as [[r e] rest']. rewrite (unknown_app _ _ _ _ _ more _ _ _ K). cbn [bindR].
  destruct e as [[|]|]; try discriminate. inv_bind E. injection E as -> ->. reflexivity.
Qed.
Lemma forR_app {A T} (l : list A) (f : A -> T * list str -> Res (T * list str)) more t ls t' ls' :
  (forall i t ls t' ls', f i (t, ls) = Ok (t', ls') -> f i (t, ls ++ more) = Ok (t', ls' ++ more)) ->
  forR l f (t, ls) = Ok (t', ls') -> forR l f (t, ls ++ more) = Ok (t', ls' ++ more).
Proof.
  intros Hf. revert t ls. induction l as [|i l IH]; intros t ls; cbn [forR]; [intros [= <- <-]; reflexivity|].
  intros E. inv_bind E. destruct a as [t1 l1]. rewrite (Hf _ _ _ _ _ K). cbn [bindR]. now apply IH.
Qed.
Lemma forR_pres {A St} (P : St -> Prop) (l : list A) f (s s' : St) :
  (forall i s s', In i l -> P s -> f i s = Ok s' -> P s') -> P s -> forR l f s = Ok s' -> P s'.
Proof.
  revert s. induction l as [|i l IH]; intros s Hf Hs E; cbn [forR] in E; [injection E as <-; exact Hs|].
  inv_bind E. eapply IH; [|eapply Hf; [left; reflexivity|exact Hs|exact K]|exact E]. intros j u u' I. apply Hf. now right.
Qed.
Lemma append_each_len N (v L L' : list pyv) : append_each N v L = Ok L' -> length L' = length L.
Proof.
  intros E. unfold append_each in E. apply (forR_pres (fun x => length x = length L)) in E; [exact E| |reflexivity].
  intros i s s' _ Hs Ei. inv_bind Ei. apply modify_nth_length in Ei. congruence.
Qed.
Lemma append_each_fits N (v L L' : list pyv) : append_each N v L = Ok L' -> (Z.to_nat N <= length L)%nat.
Proof.
  intros E. unfold append_each, range in E. remember (Z.to_nat N) as n eqn:En. clear En.
  destruct n as [|n]; [lia|]. rewrite seq_S in E. cbn [Nat.add] in E.
  assert (G : forall a b (s s' : list pyv) (f : nat -> list pyv -> Res (list pyv)), forR (a ++ b) f s = Ok s' -> exists s1, forR a f s = Ok s1 /\ forR b f s1 = Ok s').
  { clear. induction a as [|i a IH]; intros b s s' f E; cbn [app forR] in *; [eauto|]. inv_bind E. destruct (IH _ _ _ _ E) as (s1 & E1 & E2). exists s1. cbn [bindR]. auto. }
  apply G in E as (s1 & E1 & E2). cbn [forR] in E2. inv_bind E2. inv_bind K. apply modify_nth_inv in K as (p & x & y & q & Es & Ep & _ & _).
  assert (length s1 = length L).
  { apply (forR_pres (fun x => length x = length L)) in E1; [exact E1| |reflexivity].
    intros i s s' _ Hs Ei. inv_bind Ei. apply modify_nth_length in Ei. congruence. }
  rewrite Es, app_length in H0. cbn in H0. lia.
Qed.

Variable h : na num.
(** The number of auxiliary variables matters for FFI 2160 only. *)
Definition aux_len (c : cls) (s : dst (num:=num)) : Prop :=
  c = C2160 -> forall na, h_int h kNAUXV = Ok na -> length (d_A s) = Z.to_nat na.

Lemma readData1_app c ls m s s' rest more : aux_len c s -> readData1 h c ls m s = Ok (s', rest) -> readData1 h c (ls ++ more) m s = Ok (s', rest ++ more).
Proof.
  intros HA. destruct c; cbn [readData1]; unfold readData1_1001, readData1_1010, readData1_2010, readData1_2110, readData1_2310; intros E.
  1,2,3,4,5,7,8,9: inv_bind E; rename K into Kn; cbn [bindR]; inv_bind E; destruct a0 as [vs r]; rewrite (items_app _ _ _ _ _ more K);
    cbn [bindR]; repeat (inv_bind E; cbn [bindR]); injection E as <- <-; reflexivity.
  unfold readData1_2160 in *. destruct (h_int h kNAUXV) as [na|] eqn:En; cbn [bindR] in *; [|discriminate E].
  destruct (h_int h kNAUXC) as [nc|] eqn:Ec; cbn [bindR] in *; [|discriminate E].
  inv_bind E. destruct a as [x1 ls1]. rewrite (items_app _ _ _ _ _ more K). cbn [bindR]. inv_bind E. cbn [bindR].
  inv_bind E. destruct a0 as [aux ls2]. rewrite (items_app _ _ _ _ _ more K1). cbn [bindR]. inv_bind E. cbn [bindR]. inv_bind E. cbn [bindR]. inv_bind E. cbn [bindR].
  destruct (readItemsFromLines (slice_to ls2 nc)) as [auxc|] eqn:K5; cbn [bindR] in E; [|discriminate E].
  destruct (items_ok _ _ _ _ _ K1) as (u & l & _ & _ & Hn & _).
  pose proof (append_each_fits _ _ _ _ K4) as Hf. rewrite (HA eq_refl na En) in Hf.
  assert (Hnc : (0 <= nc)%Z) by lia.
  destruct (forR (range nc) _ a2) as [A2|] eqn:K6 in E; cbn [bindR] in E; [|discriminate E]. injection E as <- <-.
  assert (Hlen : (Z.to_nat nc <= length ls2)%nat).
  { assert (La : length auxc = length (slice_to ls2 nc)) by (unfold readItemsFromLines in K5; now apply mapR_length in K5).
    unfold slice_to in La. destruct (Z.ltb_spec nc 0); [lia|]. rewrite firstn_length in La.
    destruct (Nat.le_gt_cases (Z.to_nat nc) (length ls2)) as [|Hgt]; [assumption|]. exfalso.
    assert (I : forall (l : list nat) (f : nat -> list pyv -> Res (list pyv)) s s', forR l f s = Ok s' -> forall i, In i l -> exists t t', f i t = Ok t').
    { clear. induction l as [|j l IH]; intros f s s' E i Hi; cbn [forR] in E; [destruct Hi|]. inv_bind E. destruct Hi as [<- | Hi]; eauto. }
    destruct (I _ _ _ _ K6 (length ls2)) as (t & t' & Et); [unfold range; apply in_seq; lia|].
    cbn in Et. inv_bind Et. unfold nth_res in K7. destruct (nth_error auxc (length ls2)) eqn:Ee; [|discriminate].
    assert (nth_error auxc (length ls2) <> None) as Hs by congruence. apply nth_error_Some in Hs. lia. }
  assert (S1 : slice_to (ls2 ++ more) nc = slice_to ls2 nc).
  { unfold slice_to. destruct (Z.ltb_spec nc 0); [lia|]. rewrite firstn_app. replace (Z.to_nat nc - length ls2)%nat with 0%nat by lia. cbn [firstn]. apply app_nil_r. }
  assert (S2 : slice_from (ls2 ++ more) nc = slice_from ls2 nc ++ more).
  { unfold slice_from. destruct (Z.ltb_spec nc 0); [lia|]. rewrite skipn_app. replace (Z.to_nat nc - length ls2)%nat with 0%nat by lia. reflexivity. }
  rewrite S1, S2, K5. cbn [bindR]. rewrite K6. reflexivity.
Qed.
Lemma readData2_app c ls m s s' rest more : readData2 h c ls m s = Ok (s', rest) -> readData2 h c (ls ++ more) m s = Ok (s', rest ++ more).
Proof.
  assert (G2010 : readData2_2010 h ls m s = Ok (s', rest) -> readData2_2010 h (ls ++ more) m s = Ok (s', rest ++ more)).
  { unfold readData2_2010. intros E. inv_bind E. inv_bind E. cbn [bindR]. destruct (a <=? 0)%Z; [discriminate|].
    inv_bind E. destruct a1 as [V r]. injection E as <- <-. erewrite (forR_app _ _ more); [| |exact K1]; [reflexivity|].
    clear. intros n V l V' l' E. cbn [fst snd] in *. inv_bind E. destruct a as [v r]. rewrite (items_app _ _ _ _ _ more K). cbn [bindR].
    inv_bind E. cbn [bindR]. inv_bind E. cbn [bindR]. inv_bind E. cbn [bindR]. injection E as <- <-. reflexivity. }
  assert (G2110 : readData2_2110 h ls m s = Ok (s', rest) -> readData2_2110 h (ls ++ more) m s = Ok (s', rest ++ more)).
  { unfold readData2_2110. intros E. inv_bind E. cbn [bindR]. inv_bind E. cbn [bindR]. inv_bind E. cbn [bindR]. inv_bind E. cbn [bindR].
    inv_bind E. destruct a3 as [[X V] r]. injection E as <- <-. erewrite (forR_app _ _ more); [| |exact K3]; [reflexivity|].
    clear. intros n [X V] l [X' V'] l' E. inv_bind E. destruct a0 as [v r]. rewrite (items_app _ _ _ _ _ more K). cbn [bindR].
    inv_bind E. cbn [bindR]. inv_bind E. cbn [bindR]. inv_bind E. cbn [bindR]. injection E as <- <- <-. reflexivity. }
  destruct c; cbn [readData2]; auto; unfold readData2_1001, readData2_1010, readData2_1020, readData2_2310; intros E.
  - injection E as <- <-. reflexivity.
  - inv_bind E. cbn [bindR]. inv_bind E. destruct a0 as [v r]. rewrite (items_app _ _ _ _ _ more K0). cbn [bindR]. inv_bind E. cbn [bindR]. injection E as <- <-. reflexivity.
  - inv_bind E. cbn [bindR]. inv_bind E. cbn [bindR]. inv_bind E. destruct a1 as [v r]. rewrite (items_app _ _ _ _ _ more K1). cbn [bindR]. inv_bind E. cbn [bindR]. injection E as <- <-. reflexivity.
  - inv_bind E. cbn [bindR]. inv_bind E. cbn [bindR]. inv_bind E. cbn [bindR]. inv_bind E. destruct a2 as [v r]. rewrite (items_app _ _ _ _ _ more K2). cbn [bindR]. inv_bind E. cbn [bindR]. injection E as <- <-. reflexivity.
Qed.

(** ** The loop over marks in two parts *)
Lemma loop_split c (Inv : nat -> dst -> Prop) :
  (forall m s, Inv m s -> aux_len c s) ->
  (forall ls m s s1 l1 s2 l2, Inv m s -> readData1 h c ls m s = Ok (s1, l1) -> readData2 h c l1 m s1 = Ok (s2, l2) -> Inv (S m) s2) ->
  forall fuel ls m s s1, Inv m s -> data_loop h c fuel ls m s = Ok s1 ->
  exists M, Inv M s1 /\ forall fuel2 more s', (length (ls ++ more) <= fuel2)%nat ->
    data_loop h c fuel2 (ls ++ more) m s = Ok s' -> data_loop h c fuel2 more M s1 = Ok s'.
Proof.
  intros HA Hs. induction fuel as [|fuel IH]; intros [|l ls] m s s1 Hi E; cbn [data_loop] in E; try discriminate.
  - injection E as <-. eauto.
  - injection E as <-. eauto.
  - inv_bind E. destruct a as [t1 l1]. cbn [fst snd] in E. inv_bind E. destruct a as [t2 l2]. cbn [fst snd] in E.
    destruct (IH l2 (S m) t2 s1) as (M & HM & HG); [eapply Hs; eauto|exact E|]. exists M. split; [exact HM|].
    intros [|fuel2] more s' Hl E'; [cbn in Hl; lia|].
    assert (Hm : (length more <= fuel2)%nat) by (cbn in Hl; rewrite app_length in Hl; lia).
    rewrite (data_loop_fuel h c (S fuel2) fuel2) by lia.
    cbn [app data_loop] in E'. change (l :: ls ++ more) with ((l :: ls) ++ more) in E'.
    rewrite (readData1_app _ _ _ _ _ _ more (HA _ _ Hi) K) in E'. cbn [bindR fst snd] in E'.
    rewrite (readData2_app _ _ _ _ _ _ more K0) in E'. cbn [bindR fst snd] in E'. apply HG; [|exact E'].
    apply readData1_shorter in K. apply readData2_shorter in K0. rewrite app_length in *. cbn in *. lia.
Qed.

(** What is counted: the marks. *)
Definition grid (c : cls) : bool := match c with C2010 | C3010 | C4010 => true | _ => false end.
Definition own (c : cls) : bool := match c with C2110 | C2160 | C2310 => true | _ => false end.
Definition marks (c : cls) (X0 : list pyv) (m : nat) (s : dst (num:=num)) : Prop :=
  (own c = true -> length (d_X s) = m) /\
  (grid c = true -> (m = 0%nat /\ d_X s = X0) \/
     exists p q xr, X0 = PList p :: xr /\ d_X s = PList (p ++ q) :: xr /\ length q = m).

Lemma set_aux_len c ls m s s1 l1 s2 l2 : aux_len c s -> readData1 h c ls m s = Ok (s1, l1) -> readData2 h c l1 m s1 = Ok (s2, l2) -> aux_len c s2.
Proof.
  intros HA E1 E2 -> na En. specialize (HA eq_refl na En). cbn [readData1 readData2] in *.
  unfold readData1_2160 in E1. repeat first [ inv_bind E1 | match type of E1 with (let (_, _) := ?p in _) = _ => destruct p as [? ?] end ].
  injection E1 as <- _. unfold readData2_2110 in E2. repeat inv_bind E2.
  match type of E2 with (let (_, _) := ?p in _) = _ => destruct p as [[? ?] ?] end. injection E2 as <- _. cbn.
  match goal with K : forR _ _ _ = Ok a6 |- _ => apply (forR_pres (fun x => length x = length a4)) in K; [rewrite K| |reflexivity] end.
  - match goal with K : append_each _ _ _ = Ok a4 |- _ => apply append_each_len in K; congruence end.
  - intros i u u' _ Hu Ei. inv_bind Ei. destruct (_ <? 0)%Z; [discriminate|]. apply modify_nth_length in Ei. congruence.
Qed.
Lemma set_marks c X0 ls m s s1 l1 s2 l2 : marks c X0 m s -> readData1 h c ls m s = Ok (s1, l1) -> readData2 h c l1 m s1 = Ok (s2, l2) -> marks c X0 (S m) s2.
Proof.
  assert (G2110 : readData2_2110 h l1 m s1 = Ok (s2, l2) -> length (d_X s2) = length (d_X s1)).
  { intros E. unfold readData2_2110 in E. repeat inv_bind E. match type of E with (let (_, _) := ?p in _) = _ => destruct p as [[X V] r] end. injection E as <- _. cbn.
    match goal with K : forR _ _ _ = Ok (X, V, r) |- _ => apply (forR_pres (fun x => length (fst (fst x)) = length (d_X s1))) in K; [exact K| |reflexivity] end.
    intros i [[u v] w] y _ Hu Ei. cbn in Hu. inv_bind Ei. destruct a3 as [? ?]. repeat inv_bind Ei. injection Ei as <-. cbn.
    match goal with K : modify_nth u _ _ = _ |- _ => apply modify_nth_length in K; congruence end. }
  assert (G2010 : (m = 0%nat /\ d_X s = X0) \/ (exists p q xr, X0 = PList p :: xr /\ d_X s = PList (p ++ q) :: xr /\ length q = m) ->
    readData1_2010 h ls m s = Ok (s1, l1) -> readData2_2010 h l1 m s1 = Ok (s2, l2) ->
    (S m = 0%nat /\ d_X s2 = X0) \/ (exists p q xr, X0 = PList p :: xr /\ d_X s2 = PList (p ++ q) :: xr /\ length q = S m)).
  { intros Hm E1 E2. unfold readData2_2010 in E2. inv_bind E2. inv_bind E2. destruct (a <=? 0)%Z; [discriminate|]. inv_bind E2. injection E2 as <- _. cbn [d_X set_V].
    unfold readData1_2010 in E1. inv_bind E1. inv_bind E1. destruct a3 as [? ?]. repeat inv_bind E1. injection E1 as <- _. cbn [d_X set_A set_X].
    right. match goal with K : modify_nth (d_X s) 0 _ = Ok _ |- _ => rename K into KX end. destruct Hm as [[-> <-] | (p & q & xr & -> & Ex & <-)].
    - destruct (d_X s) as [|v xr]; [discriminate|]. cbn [modify_nth] in KX. destruct v as [| | | |p]; try discriminate. cbn in KX. injection KX as <-.
      eexists p, [_], xr. auto.
    - rewrite Ex in KX. cbn in KX. injection KX as <-. eexists p, (q ++ [_]), xr. rewrite app_assoc, app_length. cbn. repeat split. lia. }
  intros [M1 M2] E1 E2. split; intros Hc; destruct c; try discriminate Hc; cbn [readData1 readData2] in *.
  - specialize (M1 eq_refl). rewrite (G2110 E2). unfold readData1_2110 in E1. inv_bind E1. inv_bind E1. destruct a0 as [? ?]. repeat inv_bind E1. injection E1 as <- _.
    cbn. rewrite app_length. cbn. lia.
  - specialize (M1 eq_refl). rewrite (G2110 E2). unfold readData1_2160 in E1.
    repeat first [ inv_bind E1 | match type of E1 with (let (_, _) := ?p in _) = _ => destruct p as [? ?] end ].
    injection E1 as <- _. cbn. rewrite app_length. cbn. lia.
  - specialize (M1 eq_refl). unfold readData2_2310 in E2. repeat inv_bind E2. destruct a2 as [? ?]. inv_bind E2. injection E2 as <- _. cbn.
    unfold readData1_2310 in E1. inv_bind E1. inv_bind E1. destruct a4 as [? ?]. repeat inv_bind E1. injection E1 as <- _.
    cbn. rewrite app_length. cbn. lia.
  - exact (G2010 (M2 eq_refl) E1 E2).
  - exact (G2010 (M2 eq_refl) E1 E2).
  - exact (G2010 (M2 eq_refl) E1 E2).
Qed.

(** ** What comes later leaves the values there are as they are *)
Definition fits (m : nat) (v : pyv) : Prop := forall p, v = PList p -> (length p <= m)%nat.
Lemma goes_on_refl (v : pyv) : goes_on v v. Proof. now left. Qed.
Lemma goes_on_all (V : list pyv) : Forall2 goes_on V V.
Proof. induction V; constructor; [apply goes_on_refl|assumption]. Qed.
Lemma goes_on_app_item (v w w' x : pyv) : goes_on v w -> app_item x w = Ok w' -> goes_on v w'.
Proof.
  intros [<- | (p & q & -> & ->)]; [destruct v as [| | | |p]; try discriminate; cbn; intros [= <-]; right; exists p, [x]; auto|].
  cbn. intros [= <-]. right. exists p, (q ++ [x]). now rewrite app_assoc.
Qed.
Lemma modify_later (p q l : list pyv) m f : (length p <= m)%nat -> modify_nth (p ++ q) m f = Ok l -> exists q', l = p ++ q'.
Proof.
  revert m l. induction p as [|x p IH]; intros m l Hm E; [exists l; reflexivity|].
  destruct m as [|m]; [cbn in Hm; lia|]. cbn [app modify_nth] in E. inv_bind E. injection E as <-.
  destruct (IH m a) as [q' ->]; [cbn in Hm; lia|exact K|]. exists q'. reflexivity.
Qed.
Lemma goes_on_modify_in m (v w w' : pyv) f : fits m v -> goes_on v w -> modify_in w m f = Ok w' -> goes_on v w'.
Proof.
  intros Hf Hg E. assert (exists p q, v = PList p /\ w = PList (p ++ q)) as (p & q & -> & ->).
  { destruct Hg as [<- | Hg]; [|exact Hg]. destruct v as [| | | |p]; try discriminate. exists p, []. rewrite app_nil_r. auto. }
  cbn in E. inv_bind E. injection E as <-. apply modify_later in K as [q' ->]; [|exact (Hf p eq_refl)]. right. eauto.
Qed.
Lemma all_modify (P : pyv -> Prop) (V W W' : list pyv) n g : Forall P V -> Forall2 goes_on V W -> modify_nth W n g = Ok W' ->
  (forall v w w', P v -> goes_on v w -> g w = Ok w' -> goes_on v w') -> Forall2 goes_on V W'.
Proof.
  intros HP HF E Hg. revert n W' E. induction HF as [|v w V W Hvw HF IH]; intros [|n] W' E; cbn [modify_nth] in E; try discriminate;
    inv_bind E; injection E as <-; inversion HP as [|? ? Pv PV]; subst; constructor; eauto.
Qed.
Lemma all_append N (v V W W' : list pyv) : Forall2 goes_on V W -> append_each N v W = Ok W' -> Forall2 goes_on V W'.
Proof.
  intros HF E. unfold append_each in E. apply (forR_pres (fun W => Forall2 goes_on V W)) in E; auto.
  intros i s s' _ Hs Ei. inv_bind Ei. eapply (all_modify (fun _ => True)); [apply Forall_forall; auto|exact Hs|exact Ei|].
  intros x w w' _. apply goes_on_app_item.
Qed.

Definition later (l l' : list pyv) : Prop := exists q, l' = l ++ q.
Lemma later_refl l : later l l. Proof. exists []. now rewrite app_nil_r. Qed.
Lemma later_app l l' x : later l l' -> later l (l' ++ [x]).
Proof. intros [q ->]. exists (q ++ [x]). now rewrite app_assoc. Qed.
Definition axes (l l' : list pyv) : Prop := l = l' \/ exists t t' b, l = t :: b /\ l' = t' :: b /\ goes_on t t'.

(** The state [s] after more marks than [s1]. *)
Record grown (c : cls) (s1 s : dst (num:=num)) : Prop := mkGrown {
  g_V : Forall2 goes_on (d_V s1) (d_V s);
  g_A : Forall2 goes_on (d_A s1) (d_A s);
  g_X : if grid c then axes (d_X s1) (d_X s) else later (d_X s1) (d_X s);
  g_NX : later (d_NX s1) (d_NX s);
  g_DX : later (d_DX s1) (d_DX s)
}.
Lemma grown_refl c s : grown c s s.
Proof. constructor; try apply goes_on_all; try apply later_refl. destruct (grid c); [now left|apply later_refl]. Qed.

Lemma grown_step1 c s1 ls m s s' rest : grown c s1 s -> readData1 h c ls m s = Ok (s', rest) -> grown c s1 s'.
Proof.
  assert (G2010 : forall c', readData1_2010 h ls m s = Ok (s', rest) -> Forall2 goes_on (d_V s1) (d_V s) -> Forall2 goes_on (d_A s1) (d_A s) ->
    axes (d_X s1) (d_X s) -> later (d_NX s1) (d_NX s) -> later (d_DX s1) (d_DX s) -> grid c' = true -> grown c' s1 s').
  { clear. intros c' E GV GA GX GN GD Hc. unfold readData1_2010 in E. inv_bind E. inv_bind E. destruct a0 as [? ?]. repeat inv_bind E. injection E as <- _.
    constructor; cbn; auto; [eapply all_append; eauto|]. rewrite Hc.
    match goal with K : modify_nth (d_X s) 0 _ = Ok _ |- _ => rename K into KX end.
    destruct (d_X s) as [|v xr]; [discriminate|]. cbn [modify_nth] in KX. inv_bind KX. injection KX as <-. right.
    destruct GX as [GX | (t & t' & b & E1 & E2 & Hg)].
    - rewrite GX. eexists v, _, xr. split; [reflexivity|]. split; [reflexivity|]. eapply goes_on_app_item; [|eassumption]. apply goes_on_refl.
    - injection E2 as -> ->. rewrite E1. eexists t, _, b. split; [reflexivity|]. split; [reflexivity|]. eapply goes_on_app_item; eassumption. }
  intros [GV GA GX GN GD] E. destruct c; cbn [readData1 grid] in *.
  - unfold readData1_1001 in E. inv_bind E. inv_bind E. destruct a0 as [? ?]. repeat inv_bind E. injection E as <- _.
    constructor; cbn; auto; [eapply all_append; eauto|now apply later_app].
  - unfold readData1_1010 in E. inv_bind E. inv_bind E. destruct a0 as [? ?]. repeat inv_bind E. injection E as <- _.
    constructor; cbn; auto; [eapply all_append; eauto|now apply later_app].
  - unfold readData1_1010 in E. inv_bind E. inv_bind E. destruct a0 as [? ?]. repeat inv_bind E. injection E as <- _.
    constructor; cbn; auto; [eapply all_append; eauto|now apply later_app].
  - apply G2010; auto.
  - unfold readData1_2110 in E. inv_bind E. inv_bind E. destruct a0 as [? ?]. repeat inv_bind E. injection E as <- _.
    constructor; cbn; auto; try (now apply later_app). eapply all_append; eauto.
  - unfold readData1_2160 in E. repeat first [ inv_bind E | match type of E with (let (_, _) := ?p in _) = _ => destruct p as [? ?] end ].
    injection E as <- _. constructor; cbn; auto; try (now apply later_app).
    match goal with K : append_each _ _ _ = Ok ?y, K' : forR _ _ ?y = Ok _ |- _ =>
      apply (all_append _ _ _ _ _ GA) in K; apply (forR_pres (fun W => Forall2 goes_on (d_A s1) W)) in K'; auto end.
    intros i u u' _ Hu Ei. inv_bind Ei. destruct (_ <? 0)%Z; [discriminate|].
    eapply (all_modify (fun _ => True)); [apply Forall_forall; auto|exact Hu|exact Ei|]. intros x w w' _. apply goes_on_app_item.
  - unfold readData1_2310 in E. inv_bind E. inv_bind E. destruct a0 as [? ?]. repeat inv_bind E. injection E as <- _.
    constructor; cbn; auto; try (now apply later_app). eapply all_append; eauto.
  - apply G2010; auto.
  - apply G2010; auto.
Qed.

Lemma grown_step2 c s1 ls m s s' rest : (own c = true -> length (d_X s1) <= m)%nat -> (own c || grid c = true -> Forall (fits m) (d_V s1)) ->
  grown c s1 s -> readData2 h c ls m s = Ok (s', rest) -> grown c s1 s'.
Proof.
  assert (G2010 : forall c', Forall (fits m) (d_V s1) -> readData2_2010 h ls m s = Ok (s', rest) -> Forall2 goes_on (d_V s1) (d_V s) -> Forall2 goes_on (d_A s1) (d_A s) ->
    (if grid c' then axes (d_X s1) (d_X s) else later (d_X s1) (d_X s)) -> later (d_NX s1) (d_NX s) -> later (d_DX s1) (d_DX s) -> grown c' s1 s').
  { clear. intros c' HV E GV GA GX GN GD. unfold readData2_2010 in E. inv_bind E. inv_bind E. destruct (a <=? 0)%Z; [discriminate|]. inv_bind E. injection E as <- _.
    constructor; cbn; auto. apply (forR_pres (fun W => Forall2 goes_on (d_V s1) (fst W))) in K1; auto.
    clear -HV. intros n [W l] y _ HW E. cbn [fst snd] in *. inv_bind E. match type of E with (let (_, _) := ?p in _) = _ => destruct p as [? ?] end.
    repeat inv_bind E. injection E as <-. cbn [fst].
    match goal with K : modify_nth W n _ = Ok _ |- _ => rename K into KA end.
    match goal with K : modify_nth _ n _ = Ok ?z |- Forall2 _ _ ?z => rename K into KB end.
    eapply all_modify; [exact HV| |exact KB|].
    - eapply (all_modify (fun _ => True)); [apply Forall_forall; auto|exact HW|exact KA|]. intros v w w' _. apply goes_on_app_item.
    - intros v w w'. cbn beta. apply goes_on_modify_in. }
  assert (G2110 : forall c', (length (d_X s1) <= m)%nat -> Forall (fits m) (d_V s1) -> readData2_2110 h ls m s = Ok (s', rest) -> Forall2 goes_on (d_V s1) (d_V s) -> Forall2 goes_on (d_A s1) (d_A s) ->
    later (d_X s1) (d_X s) -> later (d_NX s1) (d_NX s) -> later (d_DX s1) (d_DX s) -> grid c' = false -> grown c' s1 s').
  { clear. intros c' HX HV E GV GA GX GN GD Hc. unfold readData2_2110 in E. repeat inv_bind E. match type of E with (let (_, _) := ?p in _) = _ => destruct p as [[X V] r] end.
    injection E as <- _.
    match goal with K : forR _ _ (d_V s) = Ok ?v |- _ => rename K into KV, v into V0 end.
    assert (G0 : Forall2 goes_on (d_V s1) V0).
    { apply (forR_pres (fun W => Forall2 goes_on (d_V s1) W)) in KV; auto. intros n u u' _ Hu En.
      eapply (all_modify (fun _ => True)); [apply Forall_forall; auto|exact Hu|exact En|]. intros v w w' _. apply goes_on_app_item. }
    match goal with K : forR _ _ (d_X s, V0, ls) = Ok _ |- _ => rename K into KL end.
    apply (forR_pres (fun W => later (d_X s1) (fst (fst W)) /\ Forall2 goes_on (d_V s1) (snd (fst W)))) in KL; [|clear KL|auto].
    - cbn in KL. destruct KL as [L1 L2]. constructor; cbn; auto. now rewrite Hc.
    - intros i [[u v] w] y _ [Hu Hv] Ei. cbn [fst snd] in *. inv_bind Ei. match type of Ei with (let (_, _) := ?p in _) = _ => destruct p as [? ?] end.
      repeat inv_bind Ei. injection Ei as <-. cbn [fst snd]. split.
      + match goal with K : modify_nth u _ _ = Ok _ |- _ => rename K into KX end. destruct Hu as [q ->]. apply modify_later in KX; [exact KX|exact HX].
      + match goal with K : forR _ _ v = Ok _ |- _ => apply (forR_pres (fun W => Forall2 goes_on (d_V s1) W)) in K; auto end.
        intros n t t' _ Ht En. inv_bind En. eapply all_modify; [exact HV|exact Ht|exact En|]. intros x z z'. cbn beta. apply goes_on_modify_in. }
  intros HX HV [GV GA GX GN GD] E. destruct c; cbn [readData2 grid own orb] in *.
  - injection E as <- _. constructor; auto.
  - unfold readData2_1010 in E. inv_bind E. inv_bind E. destruct a0 as [? ?]. repeat inv_bind E. injection E as <- _.
    constructor; cbn; auto. eapply all_append; eauto.
  - unfold readData2_1020 in E. inv_bind E. inv_bind E. inv_bind E. destruct a1 as [? ?]. repeat inv_bind E. injection E as <- _.
    constructor; cbn; auto. match goal with K : forR _ _ (d_V s) = Ok _ |- _ => apply (forR_pres (fun W => Forall2 goes_on (d_V s1) W)) in K; auto end.
    intros n u u' _ Hu En. apply (forR_pres (fun W => Forall2 goes_on (d_V s1) W)) in En; auto.
    intros i w w' _ Hw Ei. inv_bind Ei. eapply (all_modify (fun _ => True)); [apply Forall_forall; auto|exact Hw|exact Ei|].
    intros x y y' _. apply goes_on_app_item.
  - apply G2010; auto.
  - apply G2110; auto.
  - apply G2110; auto.
  - unfold readData2_2310 in E. repeat inv_bind E. match type of E with (let (_, _) := ?p in _) = _ => destruct p as [? ?] end. repeat inv_bind E. injection E as <- _.
    constructor; cbn; auto. match goal with K : forR _ _ (d_V s) = Ok _ |- _ => apply (forR_pres (fun W => Forall2 goes_on (d_V s1) W)) in K; auto end.
    specialize (HV eq_refl). intros n u u' _ Hu En. inv_bind En. apply (forR_pres (fun W => Forall2 goes_on (d_V s1) W)) in En; auto.
    + intros i w w' _ Hw Ei. inv_bind Ei. eapply all_modify; [exact HV|exact Hw|exact Ei|]. intros x y y'. cbn beta. apply goes_on_modify_in.
    + eapply (all_modify (fun _ => True)); [apply Forall_forall; auto|exact Hu|eassumption|]. intros x y y' _. apply goes_on_app_item.
  - apply G2010; auto.
  - apply G2010; auto.
Qed.

Lemma grown_loop c s1 fuel : forall ls m s s', (own c = true -> length (d_X s1) <= m)%nat -> (own c || grid c = true -> Forall (fits m) (d_V s1)) ->
  grown c s1 s -> data_loop h c fuel ls m s = Ok s' -> grown c s1 s'.
Proof.
  induction fuel as [|fuel IH]; intros [|l ls] m s s' HX HV HG E; cbn [data_loop] in E; try discriminate.
  - now injection E as <-.
  - now injection E as <-.
  - inv_bind E. destruct a as [t1 l1]. cbn [fst snd] in E. inv_bind E. destruct a as [t2 l2]. cbn [fst snd] in E.
    eapply IH; [| | |exact E].
    + intros Ho. specialize (HX Ho). lia.
    + intros Ho. specialize (HV Ho). eapply Forall_impl; [|exact HV]. intros v Hv p Ep. specialize (Hv p Ep). lia.
    + eapply grown_step2; [exact HX|exact HV| |exact K0]. eapply grown_step1; [exact HG|exact K].
Qed.
End Cut.
