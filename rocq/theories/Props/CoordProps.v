(** Properties C114 and C115: kinds of coordinates and the coordinates of a
    variable (nappy/nc_interface/xarray_utils.py). *)
From Coq Require Import List NArith ZArith Bool Lia.
From Verif Require Import Py.Str Py.Res Model.Coord Proofs.StrLemmas Proofs.TextLemmas Proofs.ReadFrame.
Import ListNotations.

(** * C114 *)
(** cf_xarray says that the coordinate itself is the [k] coordinate. *)
Definition says (c : coord) (k : str) : Prop := cd_cf c k = Some (cd_name c).
(** The attribute [k] of the coordinate (the first entry counts). *)
Definition has_attr (c : coord) (k v : str) : Prop :=
  exists a b, cd_attrs c = a ++ (k, v) :: b /\ ~ In k (map fst a).

Lemma get_spec k l v : get k l = Some v <-> exists a b, l = a ++ (k, v) :: b /\ ~ In k (map fst a).
Proof.
  induction l as [|[k' w] l IH]; cbn [get].
  - split; [discriminate|]. intros (a & b & E & _). now destruct a.
  - destruct (str_eqb k k') eqn:E.
    + apply str_eqb_eq in E as <-. split.
      * intros [= ->]. exists [], l. split; [reflexivity|]. intros [].
      * intros (a & b & E & N). destruct a as [|p a]; cbn [app] in E; [congruence|].
        exfalso. apply N. left. assert (Q := f_equal (hd p) E). cbn [hd] in Q. now subst p.
    + assert (Nk : k <> k') by (intros ->; rewrite (proj2 (str_eqb_eq k' k') eq_refl) in E; discriminate).
      rewrite IH. split.
      * intros (a & b & -> & N). exists ((k', w) :: a), b. split; [reflexivity|]. intros [K | K]; [cbn in K; congruence|contradiction].
      * intros (a & b & Ea & N). destruct a as [|p a]; cbn [app] in Ea.
        -- exfalso. assert (Q := f_equal (hd (k, v)) Ea). cbn [hd] in Q. assert (Q' := f_equal fst Q). cbn in Q'. congruence.
        -- exists a, b. assert (Q := f_equal (@tl _) Ea). cbn [tl] in Q. split; [exact Q|]. intros K. apply N. now right.
Qed.
Lemma attr_is_spec c k v : attr_is c k v = true <-> has_attr c k v.
Proof.
  unfold attr_is, has_attr. rewrite <- get_spec. destruct (get k (cd_attrs c)) as [w|]; [|split; discriminate].
  rewrite str_eqb_eq. split; [now intros -> | congruence].
Qed.
Lemma cf_is_spec c k : cf_is c k = true <-> says c k.
Proof.
  unfold cf_is, says. destruct (cd_cf c k) as [w|]; [|split; discriminate].
  rewrite str_eqb_eq. split; [now intros -> | congruence].
Qed.

(** Latitudes and longitudes are what cf_xarray says or what the standard name
    says, and nothing else. *)
Theorem C114_latitude_longitude : forall c,
  (is_latitude c = true <-> says c (lit "latitude") \/ has_attr c (lit "standard_name") (lit "latitude")) /\
  (is_longitude c = true <-> says c (lit "longitude") \/ has_attr c (lit "standard_name") (lit "longitude")).
Proof.
  intros c. unfold is_latitude, is_longitude. now rewrite !orb_true_iff, !attr_is_spec, !cf_is_spec.
Qed.

(** A level by the CF conventions: cf_xarray says so, the attribute positive is
    up or down, or the attribute axis is Z. *)
Definition a_level (c : coord) : Prop :=
  says c (lit "vertical") \/ has_attr c (lit "positive") (lit "up") \/ has_attr c (lit "positive") (lit "down") \/
  has_attr c (lit "axis") (lit "Z").
Definition depth : coord := mkCoord (lit "depth") [(lit "units", lit "m"); (lit "positive", lit "down")] (fun _ => None) [5%nat] Plain.
Definition compass : coord := mkCoord (lit "bearing") [(lit "positive", lit "clockwise"); (lit "axis", lit "X")] (fun _ => None) [8%nat] Plain.
(** Any other value of the attribute positive makes a level, too. *)
Theorem C114_level_refuted : exists c, ~ a_level c /\ is_level c = true.
Proof.
  exists compass. split; [|reflexivity]. intros K.
  assert (Q : forall k v, has_attr compass k v -> get k (cd_attrs compass) = Some v) by (intros k v; apply get_spec).
  destruct K as [K | [K | [K | K]]]; [discriminate K| | |]; apply Q in K; vm_compute in K; discriminate K.
Qed.
(** What holds: all levels are found; what is found is a level or has the
    attribute positive. *)
Theorem C114_level_partial : forall c,
  (a_level c -> is_level c = true) /\
  (is_level c = true <-> a_level c \/ exists v, has_attr c (lit "positive") v).
Proof.
  intros c. assert (M : is_level c = true <-> a_level c \/ exists v, has_attr c (lit "positive") v).
  { unfold is_level, a_level. rewrite !orb_true_iff, attr_is_spec, cf_is_spec. split.
    - intros [[K | K] | K]; [tauto| |tauto]. right. destruct (get (lit "positive") (cd_attrs c)) as [v|] eqn:E; [|discriminate K].
      exists v. now apply get_spec.
    - assert (P : forall v, has_attr c (lit "positive") v ->
        match get (lit "positive") (cd_attrs c) with Some w => str_eqb w (lit "up") || negb (is_nil (lit "down")) | None => false end = true).
      { intros v K. apply get_spec in K. rewrite K. apply orb_true_r. }
      intros [[K | [K | [K | K]]] | [v K]]; eauto. }
  split; [|exact M]. intros K. apply M. now left.
Qed.
Example C114_level_example : a_level depth /\ is_level depth = true /\ is_latitude depth = false.
Proof.
  repeat split. right; right; left. exists [(lit "units", lit "m")], []. split; [reflexivity|].
  intros [K | []]. discriminate K.
Qed.

(** A time: cf_xarray says so, the values are datetimes, or the attributes say
    so. *)
Definition a_time (c : coord) : Prop :=
  says c (lit "time") \/ cd_kind c = Datetime64 \/ cd_kind c = Cftime \/
  has_attr c (lit "axis") (lit "T") \/ has_attr c (lit "standard_name") (lit "time").
(** Without values, recognition raises, even if the attributes say that it is a
    time. *)
Definition no_times : coord := mkCoord (lit "t") [(lit "standard_name", lit "time"); (lit "axis", lit "T")] (fun _ => None) [0%nat] Plain.
Theorem C114_time_refuted : exists c, a_time c /\ is_time c true = Err EIndexError /\ is_time c false = Err EIndexError.
Proof.
  exists no_times. split; [|split; reflexivity]. right; right; right; left. exists [(lit "standard_name", lit "time")], [].
  split; [reflexivity|]. intros [K | []]. discriminate K.
Qed.
(** What holds: with at least one dimension and no empty dimension, all times
    and only times are found if the values are looked at, and for coordinates of
    one dimension also otherwise.  Missing: empty coordinates. *)
Theorem C114_time_partial : forall c by_values,
  cd_shape c <> [] -> Forall (fun n => 0 < n)%nat (cd_shape c) -> by_values = true \/ length (cd_shape c) = 1%nat ->
  exists b, is_time c by_values = Ok b /\ (b = true <-> a_time c).
Proof.
  intros c by_values Hs Hp Hb. unfold is_time.
  assert (T : a_time c <-> cf_is c (lit "time") = true \/ cd_kind c = Datetime64 \/ cd_kind c = Cftime \/
    attr_is c (lit "axis") (lit "T") = true \/ attr_is c (lit "standard_name") (lit "time") = true)
    by (unfold a_time; now rewrite cf_is_spec, !attr_is_spec).
  destruct (cf_is c (lit "time")) eqn:E0; [exists true; tauto|].
  assert (F : first_exists (cd_shape c) = true).
  { destruct Hp as [|n l Hn _]; [reflexivity|]. cbn. destruct n; [lia|reflexivity]. }
  assert (P : (fold_right Nat.mul 1%nat (cd_shape c) =? 0)%nat = false).
  { apply Nat.eqb_neq. clear - Hp. induction Hp as [|n l Hn _ IH]; cbn; [lia|]. intros K. apply Nat.eq_mul_0 in K as [K | K]; lia. }
  rewrite F, P. cbn [negb].
  assert (S : exists n l, cd_shape c = S n :: l).
  { destruct Hp as [|n l Hn _]; [now destruct Hs|]. destruct n; [lia|eauto]. }
  destruct S as (n & l & El). rewrite El in *. cbn [length] in *.
  destruct (cd_kind c) eqn:Ek; cbn [andb].
  - exists true. tauto.
  - destruct (S (length l) <=? 1)%nat eqn:E1; [exists true; tauto|].
    destruct (attr_is c (lit "axis") (lit "T") || attr_is c (lit "standard_name") (lit "time")) eqn:Ea; [exists true; tauto|].
    destruct Hb as [-> | Hb]; [exists true; tauto|]. apply Nat.leb_gt in E1. lia.
  - destruct (attr_is c (lit "axis") (lit "T")), (attr_is c (lit "standard_name") (lit "time")); cbn [orb].
    1-3: exists true; tauto.
    exists false. split; [now destruct by_values|]. split; [discriminate|]. intros K. apply T in K. decompose [or] K; discriminate.
Qed.
Example C114_time_example : let t := mkCoord (lit "t") [(lit "axis", lit "T")] (fun _ => None) [3%nat] Plain in
  cd_shape t <> [] /\ Forall (fun n => 0 < n)%nat (cd_shape t) /\ is_time t false = Ok true /\ is_time depth true = Ok false.
Proof. cbn. repeat split; [discriminate|]. repeat constructor. Qed.

(** * C115 *)
(** [c] is the coordinate of the dimension [n] of length [len]. *)
Definition coordinate_of (a : array) (n : str) (len : nat) (c : coord) : Prop :=
  (exists l r, ar_coords a = l ++ (n, c) :: r /\ ~ In n (map fst l)) \/
  (~ In n (map fst (ar_coords a)) /\ c = counting n len).

Lemma find_by_spec {A} k (l : list (str * A)) v : find_by k l = Some v -> exists a b, l = a ++ (k, v) :: b /\ ~ In k (map fst a).
Proof.
  induction l as [|[k' w] l IH]; cbn [find_by]; [discriminate|].
  destruct (str_eqb k k') eqn:E.
  - apply str_eqb_eq in E as <-. intros [= ->]. exists [], l. split; [reflexivity|]. intros [].
  - assert (Nk : k <> k') by (intros ->; rewrite (proj2 (str_eqb_eq k' k') eq_refl) in E; discriminate).
    intros K. destruct (IH K) as (a & b & -> & N). exists ((k', w) :: a), b. split; [reflexivity|].
    intros [Q | Q]; [cbn in Q; congruence|contradiction].
Qed.
Lemma find_by_none {A} k (l : list (str * A)) : find_by k l = None -> ~ In k (map fst l).
Proof.
  induction l as [|[k' w] l IH]; cbn [find_by]; [intros _ []|].
  destruct (str_eqb k k') eqn:E; [discriminate|]. intros K [Q | Q].
  - cbn in Q. subst k'. rewrite (proj2 (str_eqb_eq k k) eq_refl) in E. discriminate.
  - now apply IH.
Qed.
Lemma find_by_nodup {A} k (l : list (str * A)) v : NoDup (map fst l) -> In (k, v) l -> find_by k l = Some v.
Proof.
  induction l as [|[k' w] l IH]; cbn [find_by map fst]; [intros _ []|]. intros Nd I. inversion Nd as [|? ? N1 N2]; subst.
  destruct I as [E | I].
  - assert (Q1 := f_equal fst E). assert (Q2 := f_equal snd E). cbn in Q1, Q2. subst. now rewrite (proj2 (str_eqb_eq k k) eq_refl).
  - destruct (str_eqb k k') eqn:E; [|auto]. apply str_eqb_eq in E as <-. exfalso. apply N1.
    change k with (fst (k, v)). now apply in_map.
Qed.
Lemma coord_of_spec a n len : NoDup (map fst (ar_dims a)) -> In (n, len) (ar_dims a) ->
  exists c, coord_of a n = Ok c /\ coordinate_of a n len c.
Proof.
  intros Nd I. unfold coord_of. destruct (find_by n (ar_coords a)) as [c|] eqn:E.
  - exists c. split; [reflexivity|]. left. now apply find_by_spec.
  - rewrite (find_by_nodup _ _ _ Nd I). eexists. split; [reflexivity|]. right. split; [now apply find_by_none|reflexivity].
Qed.

(** A variable whose dimensions have different names has one coordinate for
    each dimension, in the order of the dimensions; [get_coord_by_index] gives
    the same coordinates, counting from the end for negative numbers. *)
Theorem C115_axes : forall a, NoDup (map fst (ar_dims a)) ->
  exists cs, getAxisList a = Ok cs /\
    Forall2 (fun d c => coordinate_of a (fst d) (snd d) c) (ar_dims a) cs /\
    forall i, (- Z.of_nat (length cs) <= i < Z.of_nat (length cs))%Z ->
      exists c, nth_error cs (Z.to_nat (if (i <? 0)%Z then i + Z.of_nat (length cs) else i)) = Some c /\ get_coord_by_index a i = Ok c.
Proof.
  intros a Nd.
  assert (G : forall l, incl l (ar_dims a) -> exists cs, mapR (coord_of a) (map fst l) = Ok cs /\
    Forall2 (fun d c => coordinate_of a (fst d) (snd d) c /\ coord_of a (fst d) = Ok c) l cs).
  { induction l as [|[n len] l IH]; intros I; [exists []; split; [reflexivity|constructor]|].
    destruct IH as (cs & E & F); [intros x K; apply I; now right|].
    destruct (coord_of_spec a n len Nd (I _ (or_introl eq_refl))) as (c & Ec & Hc).
    exists (c :: cs). cbn [map fst mapR]. rewrite Ec. cbn [bindR]. rewrite E. split; [reflexivity|]. constructor; auto. }
  destruct (G _ (incl_refl _)) as (cs & E & F). exists cs. split; [exact E|].
  split; [clear - F; induction F; constructor; tauto|].
  intros i Hi. assert (L : length cs = length (ar_dims a)) by (clear - F; induction F; cbn; congruence).
  unfold get_coord_by_index. rewrite <- L.
  set (j := if (i <? 0)%Z then (i + Z.of_nat (length cs))%Z else i).
  assert (Hj : (0 <= j < Z.of_nat (length cs))%Z) by (unfold j; destruct (Z.ltb_spec i 0); lia).
  destruct (Z.ltb_spec j 0); [lia|].
  assert (N : forall m, (m < length cs)%nat -> exists c n, nth_error cs m = Some c /\ nth_error (map fst (ar_dims a)) m = Some n /\ coord_of a n = Ok c).
  { clear - F. induction F as [|d c ds cs [_ K] F IH]; cbn [length]; intros m Hm; [lia|].
    destruct m as [|m]; [exists c, (fst d); auto|]. cbn [nth_error map]. apply IH. lia. }
  destruct (N (Z.to_nat j)) as (c & n & E1 & E2 & E3); [lia|]. exists c. split; [exact E1|].
  unfold nth_res. rewrite E2. cbn [of_opt bindR]. exact E3.
Qed.

Lemma set_add_in x y l : In y (set_add x l) <-> y = x \/ In y l.
Proof.
  unfold set_add. destruct (existsb (str_eqb x) l) eqn:E.
  - split; [tauto|]. intros [-> | K]; [|exact K]. apply existsb_exists in E as (z & Hz & K). apply str_eqb_eq in K as ->. exact Hz.
  - rewrite in_app_iff. cbn [In]. split; intros K; decompose [or] K; auto; contradiction.
Qed.
Lemma set_add_nodup x l : NoDup l -> NoDup (set_add x l).
Proof.
  intros K. unfold set_add. destruct (existsb (str_eqb x) l) eqn:E; [exact K|].
  apply NoDup_rev in K. rewrite <- (rev_involutive (l ++ [x])). apply NoDup_rev. rewrite rev_app_distr. cbn.
  constructor; [|exact K]. intros I. apply in_rev in I. assert (T : existsb (str_eqb x) l = true); [|congruence].
  apply existsb_exists. exists x. split; [exact I|]. now apply str_eqb_eq.
Qed.
Lemma adds_in y ds : forall l, In y (fold_left (fun s d => set_add d s) ds l) <-> In y ds \/ In y l.
Proof.
  induction ds as [|d ds IH]; intros l; cbn [fold_left In]; [tauto|]. rewrite IH, set_add_in. intuition congruence.
Qed.
Lemma adds_nodup ds : forall l, NoDup l -> NoDup (fold_left (fun s d => set_add d s) ds l).
Proof. induction ds as [|d ds IH]; intros l K; cbn [fold_left]; [exact K|]. apply IH, set_add_nodup, K. Qed.
(** The names of the dimensions of some variables: exactly these, each once. *)
Theorem C115_dimension_names : forall vs,
  NoDup (get_dim_names_for_variables vs) /\
  forall n, In n (get_dim_names_for_variables vs) <-> exists v, In v vs /\ In n (map fst (ar_dims v)).
Proof.
  intros vs. unfold get_dim_names_for_variables.
  assert (G : forall l, NoDup l -> NoDup (fold_left (fun s v => fold_left (fun s d => set_add d s) (map fst (ar_dims v)) s) vs l) /\
    forall n, In n (fold_left (fun s v => fold_left (fun s d => set_add d s) (map fst (ar_dims v)) s) vs l) <->
      (exists v, In v vs /\ In n (map fst (ar_dims v))) \/ In n l).
  { induction vs as [|v vs IH]; intros l K; cbn [fold_left].
    - split; [exact K|]. intros n. split; [tauto|]. intros [(v & [] & _) | K']; exact K'.
    - destruct (IH _ (adds_nodup (map fst (ar_dims v)) l K)) as [N1 N2]. split; [exact N1|]. intros n. rewrite N2, adds_in. split.
      + intros [(v' & I & J) | [J | J]]; [left; exists v'; split; [now right|exact J]|left; exists v; split; [now left|exact J]|now right].
      + intros [(v' & [-> | I] & J) | J]; [right; now left|left; eauto|right; now right]. }
  destruct (G [] (NoDup_nil _)) as [G1 G2]. split; [exact G1|]. intros n. rewrite G2. cbn [In]. tauto.
Qed.
Definition grid : array := mkArray [(lit "time", 2%nat); (lit "x", 3%nat); (lit "depth", 5%nat)] [(lit "depth", depth); (lit "time", mkCoord (lit "time") [] (fun _ => Some (lit "time")) [2%nat] Cftime)].
Example C115_example : NoDup (map fst (ar_dims grid)) /\
  get_coord_by_index grid (-1) = Ok depth /\ get_coord_by_index grid 1 = Ok (counting (lit "x") 3) /\
  match getAxisList grid with Ok [t; x; z] => cd_kind t = Cftime /\ x = counting (lit "x") 3 /\ z = depth | _ => False end /\
  get_dim_names_for_variables [grid; mkArray [(lit "x", 3%nat)] []] = [lit "time"; lit "x"; lit "depth"].
Proof.
  split; [|vm_compute; repeat split].
  repeat (constructor; [vm_compute; intuition discriminate|]). constructor.
Qed.

Print Assumptions C114_latitude_longitude.
Print Assumptions C114_level_refuted.
Print Assumptions C114_level_partial.
Print Assumptions C114_time_refuted.
Print Assumptions C114_time_partial.
Print Assumptions C115_axes.
Print Assumptions C115_dimension_names.
