(** C145: times are exported as numbers. *)
From Coq Require Import List NArith ZArith Bool Lia.
From Verif Require Import Py.Str Py.Res Py.Num Py.Arith Model.Xarray Model.Coord Model.TimeCoord Spec.CollectorSpec Proofs.StrLemmas Proofs.ConfigLemmas Props.ConfigProps Props.CoordProps.
Import ListNotations.

Section C145.
Context {num date : Type} `{ArithOps num}.
Local Notation timed := (timed num date).
Local Notation cell := (cell num date).

(** Every coordinate once, some values, and all of the kind of the array. *)
Definition proper_array (a : timed) : Prop :=
  NoDup (map fst (t_coords a)) /\ cd_shape (t_coord a) <> [] /\ Forall (fun n => 0 < n)%nat (cd_shape (t_coord a)) /\
  length (t_values a) = fold_right Nat.mul 1%nat (cd_shape (t_coord a)) /\
  (cd_kind (t_coord a) = Cftime <-> Forall (fun c => exists d, c = Date d) (t_values a)).

Section Numbers.
Context (date2num : str -> str -> date -> option num).
(** The calendar of an encoding. *)
Definition calendar_of (e : encoding) (c : str) : Prop := e_calendar e = Some c \/ e_calendar e = None /\ c = lit "standard".
(** The numbers of the dates under units and calendar. *)
Definition numbers (u c : str) (l : list cell) (xs : list num) : Prop :=
  Forall2 (fun v x => exists d, v = Date d /\ date2num u c d = Some x) l xs.

Lemma nums_iff u c : forall l xs, mapR (num_of date2num u c) l = Ok xs <-> numbers u c l xs.
Proof.
  induction l as [| v l IH]; intros xs.
  - split; [intros Q; injection Q as <-; constructor | intros F; inversion F; reflexivity].
  - cbn [mapR]. destruct v as [x | d]; cbn [num_of].
    + split; [discriminate |]. intros F. inversion F as [| ? ? ? ? (d & Q & _)]. discriminate Q.
    + destruct (date2num u c d) as [x |] eqn:D; cbn [of_opt bindR].
      * destruct (mapR (num_of date2num u c) l) as [ys | e] eqn:M; cbn [bindR].
        -- split; [intros Q; injection Q as <-; constructor; [eauto | apply IH; reflexivity] |].
           intros F. inversion F as [| ? y ? zs (d' & Q & D') F']; subst. injection Q as <-. rewrite D in D'. injection D' as <-. apply IH in F'. injection F' as ->. reflexivity.
        -- split; [discriminate |]. intros F. inversion F as [| ? y ? zs _ F']; subst. apply IH in F'. discriminate F'.
      * split; [discriminate |]. intros F. inversion F as [| ? y ? zs (d' & Q & D') F']; subst. injection Q as <-. congruence.
Qed.
Lemma calendar_unique e c : calendar_of e c -> match e_calendar e with Some c => c | None => lit "standard" end = c.
Proof. intros [-> | [-> ->]]; reflexivity. Qed.
Lemma nums_of_array a e u c xs : proper_array a -> cd_kind (t_coord a) <> Datetime64 -> In (lit "time", e) (t_coords a) -> e_units e = Some u -> calendar_of e c ->
  (datetimes_to_nums date2num a = Ok xs <-> numbers u c (t_values a) xs).
Proof.
  intros (ND & _) T I U C. unfold datetimes_to_nums. rewrite (lookup_in _ _ _ ND I). cbn [of_opt bindR]. rewrite U. cbn [of_opt bindR]. rewrite (calendar_unique _ _ C).
  destruct (cd_kind (t_coord a)); [congruence | apply nums_iff | apply nums_iff].
Qed.
Lemma time_known (a : timed) bv : proper_array a -> a_time (t_coord a) -> bv = true \/ length (cd_shape (t_coord a)) = 1%nat -> is_time (t_coord a) bv = Ok true.
Proof. intros (_ & P1 & P2 & _) K Q. destruct (C114_time_partial (t_coord a) bv P1 P2 Q) as (r & E & R). apply R in K. congruence. Qed.

(** With a coordinate that is called time and has units: the values are the
    numbers of the dates, and the interval is their difference. *)
Theorem C145_numbers_partial : forall (a : timed) e u c xs miss, proper_array a -> a_time (t_coord a) -> cd_kind (t_coord a) <> Datetime64 ->
  In (lit "time", e) (t_coords a) -> e_units e = Some u -> calendar_of e c -> numbers u c (t_values a) xs ->
  getArrayAsList date2num a miss true = Ok (map Number xs) /\
  (length (cd_shape (t_coord a)) = 1%nat -> forall i j x y, nth_error xs i = Some x -> nth_error xs j = Some y -> get_interval date2num a i j true = Ok (num_minus y x)).
Proof.
  intros a e u c xs miss P K T I U C Nu. apply (nums_of_array a e u c xs P T I U C) in Nu. split.
  - unfold getArrayAsList. rewrite (time_known a true P K) by auto. cbn [bindR andb]. rewrite Nu. reflexivity.
  - intros One i j x y Ex Ey. unfold get_interval. rewrite (time_known a false P K) by auto. cbn [bindR andb]. rewrite Nu. cbn [bindR]. unfold nth_res. rewrite Ex, Ey. reflexivity.
Qed.
(** Without it there is no list: these are all the conditions. *)
Theorem C145_conditions_partial : forall (a : timed) miss, proper_array a -> a_time (t_coord a) -> cd_kind (t_coord a) <> Datetime64 ->
  ((exists l, getArrayAsList date2num a miss true = Ok l) <->
   exists e u c xs, In (lit "time", e) (t_coords a) /\ e_units e = Some u /\ calendar_of e c /\ numbers u c (t_values a) xs).
Proof.
  intros a miss P K T. split.
  - intros (l & E). unfold getArrayAsList in E. rewrite (time_known a true P K) in E by auto. cbn [bindR andb] in E.
    destruct (datetimes_to_nums date2num a) as [xs | ex] eqn:D; [| discriminate E]. pose proof D as D0. unfold datetimes_to_nums in D.
    destruct (lookup (lit "time") (t_coords a)) as [e |] eqn:L; [| discriminate D]. cbn [of_opt bindR] in D. destruct (e_units e) as [u |] eqn:U; [| discriminate D].
    assert (I : In (lit "time", e) (t_coords a)).
    { clear -L. induction (t_coords a) as [| [x y] l IH]; cbn [lookup] in L; [discriminate L |]. destruct (str_eqb (lit "time") x) eqn:Q; [apply str_eqb_eq in Q; left; congruence | right; apply IH, L]. }
    assert (C : calendar_of e (match e_calendar e with Some c => c | None => lit "standard" end)) by (unfold calendar_of; destruct (e_calendar e); auto).
    exists e, u, (match e_calendar e with Some c => c | None => lit "standard" end), xs. split; [exact I |]. split; [exact U |]. split; [exact C |]. apply (nums_of_array a e u _ xs P T I U C), D0.
  - intros (e & u & c & xs & I & U & C & Nu). exists (map Number xs). apply (C145_numbers_partial a e u c xs miss P K T I U C Nu).
Qed.
(** An array that is not a time keeps its numbers; missing ones are filled. *)
Definition filled (miss : option num) (x y : num) : Prop :=
  match miss with Some m => (num_isnan x = true /\ y = m) \/ (num_isnan x = false /\ y = x) | None => y = x end.
Theorem C145_other : forall (a : timed) xs miss handle, proper_array a -> ~ a_time (t_coord a) -> t_values a = map Number xs ->
  (exists ys, getArrayAsList date2num a miss handle = Ok (map Number ys) /\ Forall2 (filled miss) xs ys) /\
  (length (cd_shape (t_coord a)) = 1%nat -> forall i j x y, nth_error xs i = Some x -> nth_error xs j = Some y -> get_interval date2num a i j handle = Ok (num_minus y x)).
Proof.
  intros a xs miss handle (_ & P1 & P2 & _) K V.
  assert (T : forall bv, bv = true \/ length (cd_shape (t_coord a)) = 1%nat -> is_time (t_coord a) bv = Ok false).
  { intros bv Q. destruct (C114_time_partial (t_coord a) bv P1 P2 Q) as ([|] & E & R); [exfalso; apply K, R; reflexivity | exact E]. }
  split.
  - unfold getArrayAsList. rewrite (T true) by auto. cbn [bindR andb]. destruct miss as [m |].
    + rewrite V. assert (X : existsb (is_date (num := num) (date := date)) (map Number xs) = false) by (clear; induction xs as [| x xs IH]; [reflexivity | exact IH]). rewrite X.
      exists (map (fun x => if num_isnan x then m else x) xs). split.
      * f_equal. rewrite !map_map. apply map_ext. intros x. cbn [fill]. destruct (num_isnan x); reflexivity.
      * clear. induction xs as [| x xs IH]; cbn [map]; constructor; [| exact IH]. cbn [filled]. destruct (num_isnan x); auto.
    + rewrite V. exists xs. split; [reflexivity |]. clear. induction xs as [| x xs IH]; constructor; [reflexivity | exact IH].
  - intros One i j x y Ex Ey. unfold get_interval. rewrite (T false) by auto. cbn [bindR andb]. rewrite V.
    assert (X : mapR (plain (num := num) (date := date)) (map Number xs) = Ok xs) by (clear; induction xs as [| x xs IH]; [reflexivity |]; cbn [map mapR plain bindR]; rewrite IH; reflexivity).
    rewrite X. cbn [bindR]. unfold nth_res. rewrite Ex, Ey. reflexivity.
Qed.
End Numbers.
End C145.

(** ** Examples *)
(** Dates are days, counted from some day; units "days since 10" and the standard
    calendar are known. *)
Definition days_since (u c : str) (d : Z) : option Z := if str_eqb u (lit "days since 10") && str_eqb c (lit "standard") then Some (d - 10)%Z else None.
Definition units10 : encoding := mkEnc (Some (lit "days since 10")) None.
Definition time_axis (name : str) (e : encoding) : timed Z Z :=
  mkTimed (mkCoord name [(lit "axis", lit "T")] (fun k => if str_eqb k (lit "time") then Some name else None) [3%nat] Cftime)
    [Date 11; Date 13; Date 16]%Z [(lit "lat", mkEnc None None); (name, e)].
Lemma proper_time name e : name <> lit "lat" -> proper_array (time_axis name e).
Proof.
  intros N. split; [cbn [map fst t_coords time_axis]; constructor; [intros [Q | []]; contradiction | constructor; [intros [] | constructor]] |].
  split; [discriminate |]. split; [repeat constructor |]. split; [reflexivity |]. split; [| reflexivity]. intros _. repeat constructor; eauto.
Qed.
Example C145_example : proper_array (time_axis (lit "time") units10) /\ a_time (t_coord (time_axis (lit "time") units10)) /\ calendar_of units10 (lit "standard") /\
  numbers days_since (lit "days since 10") (lit "standard") (t_values (time_axis (lit "time") units10)) [1; 3; 6]%Z /\
  getArrayAsList days_since (time_axis (lit "time") units10) None true = Ok (map Number [1; 3; 6]%Z) /\ get_interval days_since (time_axis (lit "time") units10) 1 2 true = Ok 3%Z.
Proof.
  split; [apply proper_time; intros Q; vm_compute in Q; discriminate Q |]. split; [left; reflexivity |]. split; [right; split; reflexivity |].
  split; [repeat constructor; eexists; split; reflexivity |]. split; vm_compute; reflexivity.
Qed.
(** A time coordinate with units and dates, but of another name: no list. *)
Theorem C145_refuted : exists (a : timed Z Z) xs, proper_array a /\ a_time (t_coord a) /\ cd_kind (t_coord a) = Cftime /\
  In (cd_name (t_coord a), units10) (t_coords a) /\ numbers days_since (lit "days since 10") (lit "standard") (t_values a) xs /\
  (forall miss, getArrayAsList days_since a miss true = Err EAttributeError) /\ forall i j, get_interval days_since a i j true = Err EAttributeError.
Proof.
  exists (time_axis (lit "t") units10), [1; 3; 6]%Z. split; [apply proper_time; intros Q; vm_compute in Q; discriminate Q |]. split; [left; reflexivity |]. split; [reflexivity |].
  split; [right; left; reflexivity |]. split; [repeat constructor; eexists; split; reflexivity |]. split; [intros miss; vm_compute; reflexivity |]. intros i j. reflexivity.
Qed.
(** Units that are in the attributes only: no list; numbers with the attributes
    of a time: no list; a latitude. *)
Definition number_axis (name standard_name : str) : timed Z Z :=
  mkTimed (mkCoord name [(lit "standard_name", standard_name); (lit "units", lit "days since 10")] (fun _ => None) [2%nat] Plain) [Number 1; Number 2]%Z [(name, units10)].
Example C145_no_units : getArrayAsList days_since (time_axis (lit "time") (mkEnc None None)) None true = Err EKeyError /\
  getArrayAsList days_since (number_axis (lit "time") (lit "time")) None true = Err ETypeError /\
  proper_array (number_axis (lit "lat") (lit "latitude")) /\ getArrayAsList days_since (number_axis (lit "lat") (lit "latitude")) (Some 9%Z) true = Ok [Number 1; Number 2]%Z.
Proof.
  split; [vm_compute; reflexivity |]. split; [vm_compute; reflexivity |]. split; [| vm_compute; reflexivity].
  split; [repeat constructor; intros [] |]. split; [discriminate |]. split; [repeat constructor |]. split; [reflexivity |].
  split; [discriminate |]. intros F. inversion F as [| ? ? (d & Q) _]. discriminate Q.
Qed.

(** The axes of [Model.Xarray], which have their numbers with them, give the same
    intervals. *)
Theorem C145_axis : forall num date (Ar : ArithOps num) (date2num : str -> str -> date -> option num) (a : timed num date) t xs info cf vals,
  length (cd_shape (t_coord a)) = 1%nat -> is_time (t_coord a) false = Ok t -> getArrayAsList date2num a None true = Ok (map Number xs) -> (t = false -> vals = xs) ->
  let ax := mkAx info cf vals (if t then Some xs else None) in
  Xarray.is_time ax = t /\ ax_nums ax = xs /\ forall i j, get_interval date2num a i j true = interval (ax_nums ax) i j.
Proof.
  intros num date Ar d2n a t xs info cf vals One T E V ax. assert (X : ax_nums ax = xs) by (unfold ax_nums, ax; cbn [ax_time ax_vals]; destruct t; auto).
  split; [unfold ax, Xarray.is_time; cbn [ax_time]; destruct t; reflexivity |]. split; [exact X |]. intros i j. rewrite X. unfold get_interval. rewrite T. cbn [bindR].
  assert (Tt : is_time (t_coord a) true = Ok t).
  { revert T. unfold is_time. destruct (cf_is _ _); [auto |]. destruct (cd_shape (t_coord a)) as [| n [| m sh]]; [discriminate One | | discriminate One].
    destruct (cd_kind (t_coord a)); [auto | |]; cbn [first_exists length Nat.leb andb]; destruct n as [| n]; cbn [negb]; auto; try discriminate. }
  unfold getArrayAsList in E. rewrite Tt in E. cbn [bindR] in E. rewrite andb_true_r in *.
  assert (Inj : forall l m : list num, map (Number (date := date)) l = map Number m -> l = m).
  { clear. induction l as [| x l IH]; intros [| y m] Q; cbn [map] in Q; try discriminate Q; [reflexivity |]. injection Q as -> Q. f_equal. apply IH, Q. }
  assert (R : (if t then datetimes_to_nums d2n a else mapR plain (t_values a)) = Ok xs).
  { destruct t.
    - destruct (datetimes_to_nums d2n a) as [l | e]; cbn [bindR] in E; [| discriminate E]. f_equal. apply Inj. injection E as E. exact E.
    - injection E as ->. clear. induction xs as [| x xs IH]; [reflexivity |]. cbn [map mapR plain bindR]. rewrite IH. reflexivity. }
  rewrite R. cbn [bindR]. reflexivity.
Qed.

Print Assumptions C145_numbers_partial.
Print Assumptions C145_conditions_partial.
Print Assumptions C145_other.
Print Assumptions C145_refuted.
Print Assumptions C145_axis.
