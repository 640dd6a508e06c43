(** The comparison of directories (C101, C102) and the program compare_na
    (C103, C104). *)
From Coq Require Import List NArith ZArith Bool Lia.
From Verif Require Import Py.Str Py.Res Model.CommonUtils Model.Getopt Model.CommandLine Model.Compare Model.CompareProg
  Proofs.StrLemmas Spec.CommandLineSpec Spec.CompareTreeSpec Props.CommandLine.
Import ListNotations.

(** ** Names *)
Lemma starts_true p : forall s, starts_with p s = true <-> exists t, s = p ++ t.
Proof.
  induction p as [|x p IH]; intros s; [split; [now exists s|reflexivity]|].
  destruct s as [|y s]; cbn [starts_with app].
  - split; [discriminate|]. intros [t E]. discriminate.
  - rewrite andb_true_iff, N.eqb_eq, IH. split.
    + intros [-> [t ->]]. now exists t.
    + intros [t E]. injection E as -> ->. eauto.
Qed.
Lemma find_from_pos p : forall s i, (0 <= i)%Z -> (0 <=? find_from p s i)%Z = true <-> part p s.
Proof.
  induction s as [|c s IH]; intros i Hi; cbn [find_from].
  - destruct (starts_with p []) eqn:E.
    + apply starts_true in E as [t E]. split; [|intros _; now apply Z.leb_le]. intros _. exists [], t. exact E.
    + split; [discriminate|]. intros (a & b & Q). destruct a; [|discriminate]. assert (K : starts_with p [] = true) by (apply starts_true; eauto). congruence.
  - destruct (starts_with p (c :: s)) eqn:E.
    + apply starts_true in E as [t E]. split; [|intros _; now apply Z.leb_le]. intros _. exists [], t. exact E.
    + rewrite IH by lia. split.
      * intros (a & b & ->). now exists (c :: a), b.
      * intros (a & b & Q). destruct a as [|x a].
        -- assert (K : starts_with p (c :: s) = true) by (apply starts_true; eauto). congruence.
        -- injection Q as -> ->. now exists a, b.
Qed.
Lemma contains_true p s : contains p s = true <-> part p s.
Proof. now apply find_from_pos. Qed.
Lemma dir_excluded_true s : dir_excluded s = true <-> hidden_dir s.
Proof. unfold dir_excluded, hidden_dir. now rewrite orb_true_iff, !contains_true. Qed.
Lemma ends_true p s : ends_with p s = true <-> exists a, s = a ++ p.
Proof.
  unfold ends_with. rewrite starts_true. split.
  - intros [t E]. exists (rev t). rewrite <- (rev_involutive s), E, rev_app_distr, rev_involutive. reflexivity.
  - intros [a ->]. exists (rev a). apply rev_app_distr.
Qed.
Lemma excluded_true s : excluded s = true <-> hidden_file s.
Proof.
  unfold excluded, hidden_file, hidden_dir. rewrite !orb_true_iff, !contains_true, !ends_true, starts_true.
  change [c_dot] with (lit "."). change [126%N] with (lit "~"). tauto.
Qed.
Lemma dir_excluded_false s : dir_excluded s = false <-> ~ hidden_dir s.
Proof. rewrite <- dir_excluded_true. destruct (dir_excluded s); split; congruence. Qed.
Lemma excluded_false s : excluded s = false <-> ~ hidden_file s.
Proof. rewrite <- excluded_true. destruct (excluded s); split; congruence. Qed.

(** ** Lines *)
Lemma differing_lines l1 : forall l2 k, compFiles_from k l1 l2 =
  filter (fun i => negb (str_eqb (nth (i - k) l1 []) (nth (i - k) l2 []))) (seq k (Nat.min (length l1) (length l2))).
Proof.
  induction l1 as [|a l1 IH]; intros [|b l2] k; try reflexivity. cbn [compFiles_from length Nat.min seq filter].
  rewrite Nat.sub_diag. cbn [nth]. rewrite IH. destruct (str_eqb a b); cbn [negb app]; [|f_equal];
    (apply filter_ext_in; intros i I; apply in_seq in I; replace (i - k) with (S (i - S k)) by lia; reflexivity).
Qed.

(** ** Trees *)
Lemma node_ind' (P : node -> Prop) : (forall c, P (File c)) -> (forall items, Forall (fun p => P (snd p)) items -> P (Dir items)) -> forall n, P n.
Proof.
  intros Hf Hd. fix IH 1. intros [c|items]; [apply Hf|]. apply Hd. induction items as [|[name x] items IHl]; constructor; [apply IH|exact IHl].
Qed.
Lemma entry_some l name x : entry l name = Some x -> In (name, x) l.
Proof.
  induction l as [|[n y] l IH]; [discriminate|]. cbn [entry]. destruct (str_eqb n name) eqn:E.
  - apply str_eqb_eq in E. intros [= <-]. subst. now left.
  - intros K. right. auto.
Qed.
Lemma entry_none l name x : entry l name = None -> ~ In (name, x) l.
Proof.
  induction l as [|[n y] l IH]; cbn [entry]; [intros _ []|]. destruct (str_eqb n name) eqn:E; [discriminate|].
  intros K [Q | Q]; [injection Q as <- <-; now rewrite (proj2 (str_eqb_eq n n) eq_refl) in E|]. now apply IH.
Qed.
Lemma entry_in l name x : NoDup (map fst l) -> In (name, x) l -> entry l name = Some x.
Proof.
  intros N I. destruct (entry l name) as [y|] eqn:E; [|now apply entry_none with (x := x) in E].
  apply entry_some in E. f_equal. clear -N I E. induction l as [|[n z] l IH]; [destruct I|]. inversion N as [|? ? N1 N2]; subst. cbn [fst map] in *.
  destruct I as [I | I], E as [E | E]; try congruence.
  - injection I as -> ->. exfalso. apply N1. now apply (in_map fst) in E.
  - injection E as -> ->. exfalso. apply N1. now apply (in_map fst) in I.
  - now apply IH.
Qed.
Lemma proper_entries n : proper n -> NoDup (map fst (entries n)) /\ forall name x, In (name, x) (entries n) -> proper x.
Proof.
  intros [c|items N F]; cbn; [split; [constructor|intros ? ? []]|]. split; [exact N|]. intros name x I. rewrite Forall_forall in F. exact (F _ I).
Qed.
Lemma at_cons n name p y : at_path n (name :: p) y <-> exists x, In (name, x) (entries n) /\ at_path x p y.
Proof.
  split.
  - intros K. inversion K; subst. eauto.
  - intros (x & I & K). destruct n as [c|items]; [destruct I|]. econstructor; eauto.
Qed.
Lemma at_nil n y : at_path n [] y <-> y = n.
Proof. split; [intros K; now inversion K|intros ->; constructor]. Qed.
Lemma at_entry n name p y : proper n -> at_path n (name :: p) y <-> exists x, entry (entries n) name = Some x /\ at_path x p y.
Proof.
  intros Pn. rewrite at_cons. destruct (proper_entries n Pn) as [N _]. split; intros (x & I & K); exists x; split; auto using entry_in, entry_some.
Qed.

(** One entry of the first directory. *)
Definition file_told (p : list str) (name c1 : str) (n2 : node) (e : event) : Prop :=
  hidden_file name /\ e = IgnoredFile p \/
  ~ hidden_file name /\ exists c2, n2 = File c2 /\ e = Compared p (differing (readlines c1) (readlines c2)).
Definition shift (p : list str) (e : event) : event :=
  match e with
  | IgnoredDir q => IgnoredDir (p ++ q) | IgnoredFile q => IgnoredFile (p ++ q)
  | NotFound q => NotFound (p ++ q) | Compared q l => Compared (p ++ q) l
  end.
Lemma shift_nil e : shift [] e = e. Proof. now destruct e. Qed.
Lemma shift_app a b e : shift (a ++ b) e = shift a (shift b e).
Proof. destruct e; cbn; now rewrite app_assoc. Qed.
(** [told], entry by entry. *)
Definition entry_told (d2 : node) (q : str * node) (e : event) : Prop :=
  let (name, n1) := q in
  match entry (entries d2) name with
  | None => e = NotFound [name]
  | Some n2 => match n1 with
               | Dir _ => exists e', e = shift [name] e' /\ told name n1 n2 e'
               | File c1 => file_told [name] name c1 n2 e
               end
  end.
Definition entry_clash (d2 : node) (q : str * node) : Prop :=
  let (name, n1) := q in
  match entry (entries d2) name with
  | None => False
  | Some n2 => match n1 with
               | Dir _ => clash name n1 n2
               | File c1 => ~ hidden_file name /\ exists l, n2 = Dir l
               end
  end.
Lemma met_here items d2 name n1 on2 : proper d2 -> met (Dir items) d2 [] name n1 on2 <-> In (name, n1) items /\ on2 = entry (entries d2) name.
Proof.
  intros P2. unfold met. cbn [app]. rewrite at_cons. cbn [entries]. split.
  - intros (_ & (x & I & K) & _ & M). apply at_nil in K. subst x. split; [exact I|]. destruct on2 as [n|].
    + apply at_entry in M as (x & E & K); [|exact P2]. apply at_nil in K. now subst.
    + destruct (entry (entries d2) name) as [x|] eqn:E; [|reflexivity]. exfalso. apply (M x). apply at_entry; [exact P2|]. exists x. split; [exact E|constructor].
  - intros [I ->]. split; [constructor|]. split; [exists n1; split; [exact I|constructor]|]. split; [exists d2; constructor|].
    destruct (entry (entries d2) name) as [x|] eqn:E.
    + apply at_entry; [exact P2|]. exists x. split; [exact E|constructor].
    + intros n K. apply at_entry in K as (x & E' & _); [congruence|exact P2].
Qed.
Lemma met_below items d2 nm above name n1 on2 : proper d2 -> met (Dir items) d2 (nm :: above) name n1 on2 <->
  ~ hidden_dir nm /\ exists l x2, In (nm, Dir l) items /\ entry (entries d2) nm = Some x2 /\ met (Dir l) x2 above name n1 on2.
Proof.
  intros P2. unfold met. cbn [app]. split.
  - intros (F & K1 & (m & K2) & M). inversion F as [|? ? Fh Ft]; subst. split; [exact Fh|].
    apply at_cons in K1 as (x1 & I1 & K1). cbn [entries] in I1. apply at_entry in K2 as (x2 & E2 & K2); [|exact P2].
    assert (D : exists l, x1 = Dir l). { destruct above as [|b above]; cbn [app] in K1; apply at_cons in K1 as (y & I & _); (destruct x1; [destruct I|eauto]). }
    destruct D as [l ->]. exists l, x2. repeat (split; [assumption|]). split; [eauto|]. destruct on2 as [n|].
    + apply at_entry in M as (x2' & E2' & M); [|exact P2]. congruence.
    + intros n K. apply (M n). apply at_entry; [exact P2|]. eauto.
  - intros (Fh & l & x2 & I1 & E2 & Ft & K1 & (m & K2) & M). split; [now constructor|]. split; [apply at_cons; eauto|]. split; [exists m; apply at_entry; eauto|].
    destruct on2 as [n|].
    + apply at_entry; eauto.
    + intros n K. apply at_entry in K as (x2' & E2' & K); [|exact P2]. rewrite E2 in E2'. injection E2' as <-. now apply (M n).
Qed.
Definition outcome (p : list str) (name : str) (n1 : node) (n2 : option node) (e : event) : Prop :=
  match e with
  | NotFound q => q = p /\ n2 = None
  | IgnoredDir q => q = p /\ n2 <> None /\ (exists l, n1 = Dir l) /\ hidden_dir name
  | IgnoredFile q => q = p /\ n2 <> None /\ (exists c, n1 = File c) /\ hidden_file name
  | Compared q lines => q = p /\ exists c1 c2, n1 = File c1 /\ n2 = Some (File c2) /\
      ~ hidden_file name /\ lines = differing (readlines c1) (readlines c2)
  end.
Lemma told_outcome dname d1 d2 e : told dname d1 d2 e <-> hidden_dir dname /\ e = IgnoredDir [] \/
  ~ hidden_dir dname /\ exists above name n1 n2, met d1 d2 above name n1 n2 /\ outcome (above ++ [name]) name n1 n2 e.
Proof. reflexivity. Qed.
Lemma hidden_dec s : hidden_dir s \/ ~ hidden_dir s.
Proof. destruct (dir_excluded s) eqn:E; [left; now apply dir_excluded_true|right; now apply dir_excluded_false]. Qed.
Lemma hiddenf_dec s : hidden_file s \/ ~ hidden_file s.
Proof. destruct (excluded s) eqn:E; [left; now apply excluded_true|right; now apply excluded_false]. Qed.
Lemma told_entries dname items d2 e : proper d2 -> told dname (Dir items) d2 e <-> hidden_dir dname /\ e = IgnoredDir [] \/
  ~ hidden_dir dname /\ exists q, In q items /\ entry_told d2 q e.
Proof.
  intros P2. rewrite told_outcome. apply or_iff_compat_l, and_iff_compat_l. split.
  - intros (above & name & n1 & on2 & M & O). destruct above as [|nm above].
    + apply met_here in M as [I ->]; [|exact P2]. exists (name, n1). split; [exact I|]. cbn [entry_told app] in *.
      destruct (entry (entries d2) name) as [n2|].
      * destruct e; cbn [outcome] in O.
        -- destruct O as (-> & _ & [l ->] & Hh). exists (IgnoredDir []). split; [reflexivity|]. left. auto.
        -- destruct O as (-> & _ & [c ->] & Hh). left. auto.
        -- destruct O as [_ O]. discriminate.
        -- destruct O as (-> & c1 & c2 & -> & [= ->] & Hh & ->). right. eauto.
      * destruct e; cbn [outcome] in O; try (destruct O as (_ & O & _); congruence).
        -- destruct O as [-> _]. reflexivity.
        -- destruct O as (_ & c1 & c2 & _ & O & _). discriminate.
    + apply met_below in M as (Hn & l & x2 & I & E & M); [|exact P2]. exists (nm, Dir l). split; [exact I|]. cbn [entry_told]. rewrite E.
      assert (S : exists e', e = shift [nm] e' /\ outcome (above ++ [name]) name n1 on2 e').
      { destruct e; cbn [outcome] in O; destruct O as [-> O].
        - now exists (IgnoredDir (above ++ [name])). - now exists (IgnoredFile (above ++ [name])).
        - now exists (NotFound (above ++ [name])). - now exists (Compared (above ++ [name]) lines). }
      destruct S as (e' & -> & O'). exists e'. split; [reflexivity|]. right. split; [exact Hn|]. exists above, name, n1, on2. split; [exact M|exact O'].
  - intros ([name n1] & I & T). cbn [entry_told] in T. destruct (entry (entries d2) name) as [n2|] eqn:E.
    + destruct n1 as [c1|l].
      * exists [], name, (File c1), (Some n2). split; [apply met_here; auto|]. destruct T as [[Hh ->] | (Hh & c2 & -> & ->)]; cbn [outcome app].
        -- split; [reflexivity|]. split; [discriminate|]. split; [eauto|exact Hh].
        -- split; [reflexivity|]. exists c1, c2. auto.
      * destruct T as (e' & -> & [[Hh ->] | (Hh & above & nm & m1 & m2 & M & O)]).
        -- exists [], name, (Dir l), (Some n2). split; [apply met_here; auto|]. cbn. split; [reflexivity|]. split; [discriminate|]. split; [eauto|exact Hh].
        -- exists (name :: above), nm, m1, m2. split; [apply met_below; [exact P2|]; split; [exact Hh|]; eauto 6|].
           destruct e'; cbn [shift outcome app] in *; (destruct O as [-> O]; split; [reflexivity|exact O]).
    + subst e. exists [], name, n1, None. split; [apply met_here; auto|]. cbn. auto.
Qed.
Lemma clash_entries dname items d2 : proper d2 -> clash dname (Dir items) d2 <-> ~ hidden_dir dname /\ exists q, In q items /\ entry_clash d2 q.
Proof.
  intros P2. unfold clash. apply and_iff_compat_l. split.
  - intros (above & name & c & l & M & Hf). destruct above as [|nm above].
    + apply met_here in M as [I E]; [|exact P2]. exists (name, File c). split; [exact I|]. cbn [entry_clash]. rewrite <- E. split; [exact Hf|eauto].
    + apply met_below in M as (Hn & l1 & x2 & I & E & M); [|exact P2]. exists (nm, Dir l1). split; [exact I|]. cbn [entry_clash]. rewrite E.
      split; [exact Hn|]. eauto 8.
  - intros ([name n1] & I & T). cbn [entry_clash] in T. destruct (entry (entries d2) name) as [n2|] eqn:E; [|destruct T]. destruct n1 as [c1|l].
    + destruct T as (Hf & l & ->). exists [], name, c1, l. split; [apply met_here; auto|exact Hf].
    + destruct T as (Hh & above & nm & c & l2 & M & Hf). exists (name :: above), nm, c, l2. split; [|exact Hf]. apply met_below; [exact P2|]. split; [exact Hh|]. eauto 6.
Qed.

(** ** The program *)
Lemma comp_file_spec p name c1 n2 : let r := comp_file p name c1 (Some n2) in
  (forall e, In e (fst r) <-> file_told p name c1 n2 e) /\ (snd r = true <-> ~ hidden_file name /\ exists l, n2 = Dir l).
Proof.
  cbv zeta. unfold comp_file, file_told. destruct (excluded name) eqn:E.
  - apply excluded_true in E. cbn [fst snd In]. split; [|split; [discriminate|tauto]]. intros e. split.
    + intros [<- | []]. left. auto.
    + intros [[_ ->] | [K _]]; [now left|contradiction].
  - apply excluded_false in E. destruct n2 as [c2|l]; cbn [fst snd In].
    + split; [|split; [discriminate|intros (_ & l & K); discriminate]]. intros e. rewrite (differing_lines _ _ 1). split.
      * intros [<- | []]. right. eauto.
      * intros [[K _] | (_ & c & Q & ->)]; [contradiction|]. injection Q as ->. now left.
    + split; [|split; eauto]. intros e. split; [intros []|]. intros [[K _] | (_ & c & Q & _)]; [contradiction|discriminate].
Qed.
Definition one_entry (p : list str) (d2 : node) (q : str * node) : report :=
  let (name, n1) := q in
  match entry (entries d2) name with
  | None => ([NotFound (p ++ [name])], false)
  | Some n2 => match n1 with
               | Dir _ => compDirs (p ++ [name]) name n1 n2
               | File c1 => comp_file (p ++ [name]) name c1 (Some n2)
               end
  end.
Fixpoint all_entries (p : list str) (d2 : node) (items : list (str * node)) : report :=
  match items with [] => ([], false) | q :: rest => then_ (one_entry p d2 q) (all_entries p d2 rest) end.
Lemma compDirs_eq p dname items d2 : compDirs p dname (Dir items) d2 =
  if dir_excluded dname then ([IgnoredDir p], false) else all_entries p d2 items.
Proof.
  cbn [compDirs]. destruct (dir_excluded dname); [reflexivity|]. induction items as [|[name n1] items IH]; [reflexivity|].
  cbn [all_entries one_entry]. rewrite IH. reflexivity.
Qed.
Definition answers (r : report) (T : event -> Prop) (C : Prop) : Prop :=
  (forall e, In e (fst r) -> T e) /\ (snd r = false -> forall e, T e -> In e (fst r)) /\ (snd r = true <-> C).
Lemma file_told_shift p name c1 n2 e : file_told (p ++ [name]) name c1 n2 e <-> exists e', e = shift p e' /\ file_told [name] name c1 n2 e'.
Proof.
  unfold file_told. split.
  - intros [[Hh ->] | (Hh & c2 & -> & ->)]; [exists (IgnoredFile [name])|exists (Compared [name] (differing (readlines c1) (readlines c2)))]; split; eauto.
  - intros (e' & -> & [[Hh ->] | (Hh & c2 & -> & ->)]); cbn [shift]; eauto.
Qed.
Lemma answers_ext r (T T' : event -> Prop) (C C' : Prop) : answers r T C -> (forall e, T e <-> T' e) -> (C <-> C') -> answers r T' C'.
Proof. intros (A & B & D) E F. split; [|split]; [firstorder|firstorder|]. now rewrite D. Qed.
Lemma then_answers a b T1 T2 C1 C2 : answers a T1 C1 -> answers b T2 C2 -> answers (then_ a b) (fun e => T1 e \/ T2 e) (C1 \/ C2).
Proof.
  intros (A1 & A2 & A3) (B1 & B2 & B3). unfold then_. destruct a as [ea [|]]; cbn [fst snd] in *.
  - split; [cbn; auto|]. split; [discriminate|]. cbn. split; auto. intros _. left. now apply A3.
  - split; [|split]; cbn [fst snd].
    + intros e I. apply in_app_or in I as [I | I]; auto.
    + intros Eb e [K | K]; apply in_or_app; auto.
    + rewrite B3. split; [auto|]. intros [K | K]; [|exact K]. apply A3 in K. discriminate.
Qed.
Definition shifted (p : list str) (T : event -> Prop) (e : event) : Prop := exists e', e = shift p e' /\ T e'.
Lemma compDirs_spec d1 : forall p dname d2 items, d1 = Dir items -> proper d2 ->
  answers (compDirs p dname d1 d2) (shifted p (told dname d1 d2)) (clash dname d1 d2).
Proof.
  induction d1 as [c|items IH] using node_ind'; intros p dname d2 items' E P2; [discriminate|]. clear E items'.
  rewrite compDirs_eq. destruct (dir_excluded dname) eqn:Ed.
  { apply dir_excluded_true in Ed. split; [|split]; cbn [fst snd In].
    - intros e [<- | []]. exists (IgnoredDir []). cbn [shift]. rewrite app_nil_r. split; [reflexivity|]. left. auto.
    - intros _ e (e' & -> & [[_ ->] | [K _]]); [|contradiction]. cbn [shift]. rewrite app_nil_r. now left.
    - split; [discriminate|]. intros [K _]. contradiction. }
  apply dir_excluded_false in Ed.
  eapply (answers_ext _ (shifted p (fun e => exists q, In q items /\ entry_told d2 q e)) _ (exists q, In q items /\ entry_clash d2 q)).
  - induction IH as [|[name n1] items IH1 _ IHl].
    + split; [|split]; cbn; [intros e []|intros _ e (e' & _ & q & [] & _)|split; [discriminate|intros (q & [] & _)]].
    + cbn [all_entries]. eapply answers_ext; [apply then_answers; [|exact IHl]| |].
      * instantiate (1 := entry_clash d2 (name, n1)). instantiate (1 := shifted p (entry_told d2 (name, n1))).
        cbn [one_entry entry_clash]. unfold entry_told. destruct (entry (entries d2) name) as [n2|] eqn:En.
        -- destruct n1 as [c1|l].
           ++ pose proof (comp_file_spec (p ++ [name]) name c1 n2) as K. cbv zeta in K. destruct K as [K1 K2]. split; [|split; [|exact K2]].
              ** intros e I. apply K1, file_told_shift in I. exact I.
              ** intros _ e T. apply K1, file_told_shift. exact T.
           ++ cbn [snd] in IH1. assert (P : proper n2) by (apply (proj2 (proper_entries d2 P2) name), entry_some, En).
              eapply answers_ext; [apply (IH1 (p ++ [name]) name n2 l eq_refl P)| |reflexivity].
              intros e. unfold shifted. split.
              ** intros (e' & -> & T). exists (shift [name] e'). split; [apply shift_app|eauto].
              ** intros (e' & -> & e'' & -> & T). exists e''. split; [symmetry; apply shift_app|exact T].
        -- split; [|split]; cbn [fst snd In].
           ++ intros e [<- | []]. exists (NotFound [name]). auto.
           ++ intros _ e (e' & -> & ->). now left.
           ++ split; [discriminate|tauto].
      * intros e. unfold shifted. split.
        -- intros [(e' & -> & T) | (e' & -> & q & I & T)]; exists e'; (split; [reflexivity|]); [exists (name, n1)|exists q]; split; auto; [now left|now right].
        -- intros (e' & -> & q & [<- | I] & T); [left|right]; eauto.
      * split.
        -- intros [K | (q & I & K)]; [exists (name, n1)|exists q]; split; auto; [now left|now right].
        -- intros (q & [<- | I] & K); [now left|right; eauto].
  - intros e. unfold shifted. split; intros (e' & -> & T); exists e'; (split; [reflexivity|]).
    + apply told_entries; [exact P2|]. auto.
    + apply told_entries in T as [[K _] | [_ T]]; [contradiction|exact T|exact P2].
  - rewrite clash_entries by exact P2. tauto.
Qed.

(** ** C101 *)
(** Whatever the comparison says is so; when it is not cut short it says
    everything that is to be said about the entries of the first directory; it is
    cut short exactly when a file of the first directory is a directory in the
    second one. *)
Theorem C101_told_partial dname items d2 : proper d2 -> let r := compDirs [] dname (Dir items) d2 in
  (forall e, In e (fst r) -> told dname (Dir items) d2 e) /\
  (snd r = false -> forall e, told dname (Dir items) d2 e -> In e (fst r)) /\
  (snd r = true <-> clash dname (Dir items) d2).
Proof.
  intros P2 r. destruct (compDirs_spec (Dir items) [] dname d2 items eq_refl P2) as (A & B & C). fold r in A, B, C.
  split; [|split; [|exact C]].
  - intros e I. destruct (A e I) as (e' & -> & T). now rewrite shift_nil.
  - intros S e T. apply B; [exact S|]. exists e. now rewrite shift_nil.
Qed.
(** The program compare.py with two directories. *)
Theorem C101_program_partial disk i1 i2 items d2 : disk i1 = Some (Dir items) -> disk i2 = Some d2 -> proper d2 ->
  let r := compare_main disk [i1; i2] in
  (forall e, In e (fst r) -> told (last_part i1) (Dir items) d2 e) /\
  (snd r = false -> forall e, told (last_part i1) (Dir items) d2 e -> In e (fst r)) /\
  (snd r = true <-> clash (last_part i1) (Dir items) d2).
Proof. intros E1 E2 P2. unfold compare_main, compare. rewrite E1, E2. now apply C101_told_partial. Qed.

(** Every difference between the directories is not reported: neither a file
    that only the second one has, nor lines after the end of the shorter file,
    nor anything after a file that is a directory in the second one. *)
Definition some_file : node := File (lit "7 1001
").
Definition longer_file : node := File (lit "7 1001
8 2010
").
Definition other_file : node := File (lit "9 1001
").
Theorem C101_everything_refuted : exists dname d1 d2, proper d1 /\ proper d2 /\ ~ hidden_dir dname /\
  (exists x, at_path d2 [x] some_file /\ ~ hidden_file x /\ forall n, ~ at_path d1 [x] n) /\
  (exists x, ~ hidden_file x /\ at_path d1 [x] some_file /\ at_path d2 [x] longer_file) /\
  forall e, In e (fst (compDirs [] dname d1 d2)) -> exists p, e = Compared p [].
Proof.
  exists (lit "old"), (Dir [(lit "a.na", some_file)]), (Dir [(lit "a.na", longer_file); (lit "b.na", some_file)]).
  assert (Hf : forall s, excluded s = false -> ~ hidden_file s) by (intros s; apply excluded_false).
  split; [constructor; [repeat constructor; cbn; intuition|repeat constructor]|].
  split; [constructor; [|repeat constructor]; constructor; [intros [K | []]; discriminate|repeat constructor; cbn; intuition]|].
  split; [now apply dir_excluded_false|]. split; [|split].
  - exists (lit "b.na"). split; [econstructor; [right; left; reflexivity|constructor]|]. split; [now apply Hf|].
    intros n K. inversion K as [|? ? ? ? ? I _]; subst. destruct I as [I | []]. discriminate.
  - exists (lit "a.na"). split; [now apply Hf|]. split; (econstructor; [left; reflexivity|constructor]).
  - intros e I. vm_compute in I. destruct I as [<- | []]. eexists. reflexivity.
Qed.
Theorem C101_rest_refuted : exists dname d1 d2 x, proper d1 /\ proper d2 /\ ~ hidden_file x /\
  at_path d1 [x] some_file /\ at_path d2 [x] other_file /\ compDirs [] dname d1 d2 = ([], true).
Proof.
  exists (lit "old"), (Dir [(lit "a.na", some_file); (lit "b.na", some_file)]), (Dir [(lit "a.na", Dir []); (lit "b.na", other_file)]), (lit "b.na").
  assert (Q : forall x y : node, proper x -> proper y -> proper (Dir [(lit "a.na", x); (lit "b.na", y)])).
  { intros x y Px Py. constructor; [|repeat constructor; assumption]. constructor; [intros [K | []]; discriminate|]. repeat constructor. intros []. }
  split; [apply Q; constructor|]. split; [apply Q; repeat constructor|]. split; [now apply excluded_false|].
  split; [econstructor; [right; left; reflexivity|constructor]|]. split; [econstructor; [right; left; reflexivity|constructor]|]. reflexivity.
Qed.
Example C101_example :
  let a := Dir [(lit "d", Dir [(lit "x.na", some_file); (lit "y.na", some_file)]); (lit "n.na~", some_file); (lit "CSV", Dir []); (lit "z", longer_file)] in
  let b := Dir [(lit "z", longer_file); (lit "d", Dir [(lit "x.na", other_file)]); (lit "CSV", Dir []); (lit "n.na~", other_file)] in
  proper b /\ compDirs [] (lit "old") a b =
    ([Compared [lit "d"; lit "x.na"] [1]; NotFound [lit "d"; lit "y.na"]; IgnoredFile [lit "n.na~"]; IgnoredDir [lit "CSV"]; Compared [lit "z"] []], false).
Proof.
  split; [|reflexivity]. constructor.
  - repeat (constructor; [cbn [In map fst]; intros K; repeat destruct K as [K | K]; try discriminate K; destruct K|]). constructor.
  - repeat constructor; cbn; intuition.
Qed.

(** ** C102 *)
Lemma differing_same l : differing l l = [].
Proof.
  unfold differing. generalize (seq 1 (Nat.min (length l) (length l))). intros s. induction s as [|i s IH]; [reflexivity|].
  cbn [filter]. now rewrite (proj2 (str_eqb_eq _ _) eq_refl).
Qed.
Lemma at_one n : proper n -> forall p x y, at_path n p x -> at_path n p y -> x = y.
Proof.
  induction n as [c|items IH] using node_ind'; intros Pn p x y K1 K2.
  - inversion K1; subst. inversion K2; subst. reflexivity.
  - destruct p as [|nm p]; [apply at_nil in K1, K2; congruence|]. rewrite Forall_forall in IH.
    apply at_entry in K1 as (m1 & E1 & K1); [|exact Pn]. apply at_entry in K2 as (m2 & E2 & K2); [|exact Pn].
    assert (m1 = m2) by congruence. subst m2. apply entry_some in E1. destruct (proper_entries _ Pn) as [_ Q].
    exact (IH (nm, m1) E1 (Q _ _ E1) p x y K1 K2).
Qed.
(** A directory compared with a directory that has the same files: nothing is
    missing, no line differs, and the program runs to the end. *)
Theorem C102_same dname items : proper (Dir items) -> let r := compDirs [] dname (Dir items) (Dir items) in
  snd r = false /\ forall e, In e (fst r) -> match e with NotFound _ => False | Compared _ lines => lines = [] | _ => True end.
Proof.
  intros P r. destruct (C101_told_partial dname items (Dir items) P) as (A & _ & C). fold r in A, C. split.
  - destruct (snd r) eqn:E; [|reflexivity]. exfalso. destruct (proj1 C eq_refl) as (_ & above & name & c & l & (_ & K1 & _ & K2) & _).
    now pose proof (at_one _ P _ _ _ K1 K2).
  - intros e I. apply A in I as [[_ ->] | (_ & above & name & n1 & n2 & (_ & K1 & _ & K2) & T)]; [exact Logic.I|].
    destruct e; try exact Logic.I.
    + destruct T as [_ ->]. exact (K2 n1 K1).
    + destruct T as (_ & c1 & c2 & -> & -> & _ & ->). pose proof (at_one _ P _ _ _ K1 K2) as [= ->]. apply differing_same.
Qed.
(** Every file that is not hidden is compared. *)
Theorem C102_all dname items above name c : proper (Dir items) -> ~ hidden_dir dname -> Forall (fun x => ~ hidden_dir x) above ->
  ~ hidden_file name -> at_path (Dir items) (above ++ [name]) (File c) ->
  In (Compared (above ++ [name]) []) (fst (compDirs [] dname (Dir items) (Dir items))).
Proof.
  intros P Hd Ha Hn K. destruct (C101_told_partial dname items (Dir items) P) as (_ & B & _). apply B; [apply (C102_same dname items P)|].
  right. split; [exact Hd|]. exists above, name, (File c), (Some (File c)). split.
  - split; [exact Ha|]. split; [exact K|]. split; [|exact K].
    clear -K. revert K. generalize (Dir items). induction above as [|a above IH]; intros n K; [exists n; constructor|].
    cbn [app] in K. inversion K; subst. destruct (IH _ H4) as [m M]. exists m. econstructor; eauto.
  - split; [reflexivity|]. exists c, c. rewrite differing_same. auto.
Qed.
Example C102_example : let a := Dir [(lit "d", Dir [(lit "x.na", some_file)]); (lit "z", longer_file)] in
  proper a /\ compDirs [] (lit "old") a a = ([Compared [lit "d"; lit "x.na"] []; Compared [lit "z"] []], false).
Proof.
  split; [|reflexivity]. constructor.
  - constructor; [intros [K | []]; discriminate|]. repeat constructor. intros [].
  - repeat constructor; cbn; intuition.
Qed.

(** ** C103: the options of compare_na *)
Definition cmp_meaning (p : bool * bool * cmp_opt) : option_value :=
  let '(_, short_name, o) := p in
  let w (s l : str) := if short_name then s else l in
  match o with
  | CHeaderOnly => (w (lit "-h") (lit "--header-only"), [])
  | CBodyOnly => (w (lit "-b") (lit "--body-only"), [])
  | CNumberStrict => (w (lit "-n") (lit "--number-strict"), [])
  | CApprox => (w (lit "-a") (lit "--approx-equal"), [])
  | CDelim1 d => (w (lit "-1") (lit "--delimiter-1"), d)
  | CDelim2 d => (w (lit "-2") (lit "--delimiter-2"), d)
  end.
Lemma cmp_step fuel p rest : cmp_sayable p ->
  getopt_loop (S fuel) cmp_short cmp_long (cmp_words p ++ rest) =
  bindO (getopt_loop fuel cmp_short cmp_long rest) (fun q => Opts (cmp_meaning p :: fst q, snd q)).
Proof.
  destruct p as [[j s] o]. intros Hs. cbn [cmp_sayable] in Hs. destruct s, o; cbn [cmp_words cmp_meaning app].
  1-4: (refine (loop_flag _ _ fuel _ rest _ _); [discriminate|reflexivity]).
  1,2: (refine (loop_short _ _ fuel j _ _ rest _ _ _); [discriminate|reflexivity|auto]).
  - refine (loop_long_flag _ _ fuel (lit "header-only") rest _ _ _); [discriminate|no_eq|reflexivity].
  - refine (loop_long_flag _ _ fuel (lit "body-only") rest _ _ _); [discriminate|no_eq|reflexivity].
  - refine (loop_long_flag _ _ fuel (lit "number-strict") rest _ _ _); [discriminate|no_eq|reflexivity].
  - refine (loop_long_flag _ _ fuel (lit "approx-equal") rest _ _ _); [discriminate|no_eq|reflexivity].
  - refine (loop_long _ _ fuel j (lit "delimiter-1") _ rest _ _ _); [discriminate|no_eq|reflexivity].
  - refine (loop_long _ _ fuel j (lit "delimiter-2") _ rest _ _ _); [discriminate|no_eq|reflexivity].
Qed.
Lemma cmp_getopt l rest fuel : Forall cmp_sayable l -> stops rest -> (length l <= fuel)%nat ->
  getopt_loop fuel cmp_short cmp_long (flat_map cmp_words l ++ rest) = Opts (map cmp_meaning l, rest).
Proof.
  intros Hl Hr. revert fuel. induction Hl as [|p l Hp _ IH]; intros fuel Hf; [now apply loop_stops|].
  destruct fuel as [|fuel]; [simpl in Hf; lia|]. cbn [flat_map]. rewrite <- app_assoc, cmp_step by auto.
  rewrite IH by (simpl in Hf; lia). reflexivity.
Qed.
Lemma cmp_words_length p : (1 <= length (cmp_words p))%nat.
Proof. destruct p as [[[] []] []]; cbn; lia. Qed.
Definition cmp_asked (l : list cmp_opt) : cmp_cmd :=
  mkCmp (negb (given is_body_only l)) (negb (given is_header_only l)) (negb (given is_strict l)) (given is_approx l)
    (last_of f_delim1 l) (last_of f_delim2 l).
Lemma cmp_each l : each cmp_option (map cmp_meaning l) cmp_defaults = Done (cmp_asked (map snd l)).
Proof.
  induction l as [|p l IH] using rev_ind; [reflexivity|]. rewrite !map_app, each_app, IH. cbn [map bindX each].
  unfold cmp_asked. rewrite !given_snoc, !last_of_snoc. destruct p as [[j []] []]; reflexivity.
Qed.
(** Options in any order, short or long, then the two items: each option has
    its effect, of several delimiters the last one counts. *)
Theorem C103_options l i1 i2 : Forall cmp_sayable l -> no_option i1 ->
  let o := map snd l in
  cmp_parseArgs (flat_map cmp_words l ++ [i1; i2]) =
  if given is_header_only o && given is_body_only o then Exit
  else Done ([i1; i2], mkCmp (negb (given is_body_only o)) (negb (given is_header_only o)) (negb (given is_strict o)) (given is_approx o)
                         (last_of f_delim1 o) (last_of f_delim2 o)).
Proof.
  intros Hl H1 o. unfold cmp_parseArgs, getopt. rewrite cmp_getopt; [|exact Hl|exact H1|apply words_length, cmp_words_length].
  rewrite cmp_each. cbn [bindX length Nat.eqb negb]. fold o. unfold cmp_asked. cbn [z_header z_body]. rewrite !negb_involutive, andb_comm. reflexivity.
Qed.
(** Any other number of items ends the program. *)
Theorem C103_items l rest : Forall cmp_sayable l -> stops rest -> length rest <> 2 -> cmp_parseArgs (flat_map cmp_words l ++ rest) = Exit.
Proof.
  intros Hl H1 Hn. unfold cmp_parseArgs, getopt. rewrite cmp_getopt; [|exact Hl|exact H1|apply words_length, cmp_words_length].
  rewrite cmp_each. cbn [bindX]. apply Nat.eqb_neq in Hn. now rewrite Hn.
Qed.
Example C103_example :
  let l := [(true, true, CHeaderOnly); (true, true, CDelim1 (lit ",")); (false, false, CDelim2 (lit ";")); (true, false, CApprox)] in
  Forall cmp_sayable l /\ flat_map cmp_words l = map lit ["-h"; "-1,"; "--delimiter-2"; ";"; "--approx-equal"]%pylit /\
  cmp_parseArgs (flat_map cmp_words l ++ map lit ["a.na"; "b.na"]%pylit) =
    Done (map lit ["a.na"; "b.na"]%pylit, mkCmp true false true true (Some (lit ",")) (Some (lit ";"))).
Proof. split; [|split; reflexivity]. repeat constructor; cbn; congruence. Qed.

(** ** C104: the program compare_na *)
(** The claim of the usage text, that the program compares two files or
    directories, is false: it never compares anything. *)
Theorem C104_never_refuted : (exists disk args a, cmp_parseArgs args = Done a /\ compare_na_main disk args = Raise ENameError) /\
  forall disk args r, compare_na_main disk args <> Done r.
Proof.
  split.
  - exists (fun _ => Some some_file), (map lit ["a.na"; "b.na"]%pylit), (map lit ["a.na"; "b.na"]%pylit, cmp_defaults). split; reflexivity.
  - intros disk args r. unfold compare_na_main. destruct (cmp_parseArgs args); discriminate.
Qed.
Theorem C104_files_refuted : (exists (disk : str -> option node) i1 i2, disk i1 = Some some_file /\ disk i2 = Some some_file /\ i1 <> i2) /\
  forall disk i1 i2 c a, disk i1 = Some (File c) -> compareNA disk i1 i2 a = Raise ENameError.
Proof.
  split.
  - exists (fun _ => Some some_file), (lit "a.na"), (lit "b.na"). repeat split. discriminate.
  - intros disk i1 i2 c a E. unfold compareNA. now rewrite E.
Qed.
(** The function with two directories compares the texts of their files, as
    compare.py does, whatever the options say. *)
Theorem C104_directories_partial disk i1 i2 items a : disk i1 = Some (Dir items) ->
  compareNA disk i1 i2 a = Done (compare_main disk [i1; i2]).
Proof. intros E. unfold compareNA, compare_main, compare. now rewrite E. Qed.
Example C104_example : let disk := fun p => Some (if str_eqb p (lit "a") then Dir [(lit "x.na", some_file)] else Dir [(lit "x.na", other_file)]) in
  compareNA disk (lit "a") (lit "b") (mkCmp true false true true None None) = Done ([Compared [lit "x.na"] [1]], false).
Proof. reflexivity. Qed.

Print Assumptions C101_told_partial.
Print Assumptions C101_program_partial.
Print Assumptions C101_everything_refuted.
Print Assumptions C101_rest_refuted.
Print Assumptions C102_same.
Print Assumptions C102_all.
Print Assumptions C103_options.
Print Assumptions C103_items.
Print Assumptions C104_never_refuted.
Print Assumptions C104_files_refuted.
Print Assumptions C104_directories_partial.
