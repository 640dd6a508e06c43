(** Vocabulary for the conversion of variables to NASA Ames dictionaries. *)
From Coq Require Import List NArith ZArith Bool.
From Verif Require Import Py.Str Py.Res Py.Num Py.Arith Model.Dict Model.Xarray Spec.TextSpec.
Import ListNotations.

Section Spec.
Context {num : Type} `{NumOps num} `{ArithOps num}.
Local Notation xvar := (xvar num).
Local Notation axis := (axis num).

(** [v] has at least one dimension. *)
Definition has_axes (v : xvar) : bool := negb (length (v_axes v) =? 0)%nat.

(** The values of [a] are every n-th value of [b], for some n >= 1. *)
Definition coarser (a b : axis) : Prop :=
  exists n, (1 <= n)%nat /\ length (ax_vals b) = (n * length (ax_vals a))%nat /\
  forall i x, nth_error (ax_vals a) i = Some x ->
  exists y, nth_error (ax_vals b) (n * i) = Some y /\ num_same y x = true.

(** The integers stored in attribute [att], as positions in a list of 1000. *)
Definition positions (att : str) (vars : list xvar) : list Z :=
  flat_map (fun v => match lookup att (n_attrs (v_info v)) with
                     | Some (mkG _ (PInt z)) => [(z mod 1000)%Z]
                     | _ => []
                     end) vars.

(** Same name, same length, same units, and one value in the same place. *)
Definition agree (a b : axis) : Prop :=
  n_name (ax_info a) = n_name (ax_info b) /\
  length (ax_vals a) = length (ax_vals b) /\
  match lookup (lit "units") (n_attrs (ax_info a)), lookup (lit "units") (n_attrs (ax_info b)) with
  | Some x, Some y => g_val x = g_val y
  | None, None => True
  | _, _ => False
  end /\
  exists i x y, nth_error (ax_vals a) i = Some x /\ nth_error (ax_vals b) i = Some y /\ num_same x y = true.

(** Within [vars], axes of one name are one axis (as in one xarray Dataset). *)
Definition coherent (vars : list xvar) : Prop :=
  forall v w a b, In v vars -> In w vars -> In a (v_axes v) -> In b (v_axes w) ->
  n_name (ax_info a) = n_name (ax_info b) -> a = b.

(** [v] is a coordinate variable: its name is the name of a dimension. *)
Definition is_dimension (vars : list xvar) (v : xvar) : bool :=
  existsb (fun w => existsb (fun a => str_eqb (n_name (ax_info a)) (v_name v)) (v_axes w)) vars.
(** The variables that should be converted. *)
Definition data_vars (vars : list xvar) : list xvar :=
  filter (fun v => has_axes v && negb (is_dimension vars v)) vars.

(** Nothing makes the conversion lose a variable:
    - no variable with axes has the name of a scalar;
    - the axis of a one-dimensional variable is every n-th value of the first axis
      of another variable only if it has its name and length;
    - the numbers that variables have from an earlier NASA Ames file are distinct
      as positions. *)
Definition separate (vars : list xvar) : Prop :=
  (forall v z n, In v vars -> In z vars -> has_axes v = true -> has_axes z = false ->
     getBestName (v_info z) = Ok n -> v_name v <> n) /\
  (forall v w a b, In v vars -> In w vars -> v_axes v = [a] -> hd_error (v_axes w) = Some b -> coarser a b ->
     ax_name a = ax_name b /\ ax_len a = ax_len b) /\
  NoDup (positions (lit "nasa_ames_var_number") (filter has_axes vars)) /\
  NoDup (positions (lit "nasa_ames_aux_var_number") (filter has_axes vars)).

(** A text of one line. *)
Definition one_line (s : str) : Prop := ~ In c_nl s.
(** No line but the first is blank. *)
Definition tidy (s : str) : Prop := forall l, In l (tl (split_chr c_nl s)) -> ~ blank l.
Definition tidy_val (v : pyv num) : Prop :=
  match v with PStr s => tidy s | PList [PStr s] => tidy s | _ => True end.
Definition name_keys : list str := map lit ["long_name"; "standard_name"; "title"; "units"]%pylit.
(** Names are one line long, other attributes have no blank lines. *)
Definition tidy_var (v : xvar) : Prop :=
  one_line (v_name v) /\ one_line (n_enc_units (v_info v)) /\ tidy_val (v_data v) /\
  forall k g, In (k, g) (n_attrs (v_info v)) -> one_line k /\ tidy_val (g_val g) /\
    (In k name_keys -> forall s, g_val g = PStr s -> one_line s).
Definition tidy_global (p : str * gval num) : Prop :=
  one_line (fst p) /\ (fst p <> lit "comment" -> fst p <> lit "history" -> tidy_val (g_val (snd p))).
End Spec.

(** Integers as numbers, for the concrete cases. *)
Global Instance ZArithOps : ArithOps Z := {|
  num_plus := Z.add; num_minus := Z.sub; num_times := Z.mul; num_same := Z.eqb; num_isnan := fun _ => false
|}.

(** Adding the difference of two neighbours (or a number that equals it) to the
    first of them gives the second one; so it is in exact arithmetic. *)
Definition adds_up {num} `{ArithOps num} (l : list num) : Prop :=
  forall i x y d, nth_error l i = Some x -> nth_error l (S i) = Some y -> num_same (num_minus y x) d = true -> num_plus x d = y.
(** All differences of neighbours equal the first one. *)
Definition evenly_spaced {num} `{ArithOps num} (l : list num) : Prop :=
  forall a b i x y, nth_error l 0 = Some a -> nth_error l 1 = Some b -> nth_error l i = Some x -> nth_error l (S i) = Some y ->
  num_same (num_minus y x) (num_minus b a) = true.
