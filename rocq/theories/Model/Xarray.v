(** nappy/nc_interface/xarray_utils.py: the part of xarray that the conversion
    looks at, and the helper functions.

    Simplifications: every dimension of a variable has a coordinate (an axis) and
    the shape is given by the lengths of the axes; the name of an axis is the name
    of its dimension; attribute access on a variable ([hasattr]) finds only its
    attributes and its name; data and axis values are numbers; a datetime axis has
    any faithful numbers as values, and the numbers that [cftime.date2num]
    returns in [ax_time]; numpy numbers print as Python numbers do. *)
From Coq Require Import List NArith ZArith Bool.
From Verif Require Import Py.Str Py.Res Py.Num Py.Arith Model.Dict.
Import ListNotations.

(** [s.count(p)] for a non-empty [p]: occurrences that do not overlap. *)
Fixpoint count_aux (p s : str) (skip : nat) : nat :=
  match s with
  | [] => O
  | c :: t =>
      match skip with
      | S k => count_aux p t k
      | O => if starts_with p s then S (count_aux p t (pred (length p))) else count_aux p t O
      end
  end.
Definition count_str (p s : str) : nat := count_aux p s O.

Section Xarray.
Context {num : Type} `{NumOps num} `{ArithOps num}.
Local Notation pyv := (pyv num).

(** An attribute value; [g_np] says that it is a numpy scalar. *)
Record gval := mkG { g_np : bool; g_val : pyv }.
Definition gstr (s : str) : gval := mkG false (PStr s).
Definition gint (z : Z) : gval := mkG false (PInt z).

(** What [getBestName] looks at: [obj.name], [obj.attrs] and
    [obj.encoding.get("units", "")]. *)
Record named := mkNamed { n_name : str; n_attrs : list (str * gval); n_enc_units : str }.
Fixpoint lookup {A} (k : str) (l : list (str * A)) : option A :=
  match l with
  | [] => None
  | (k', v) :: t => if str_eqb k k' then Some v else lookup k t
  end.
Definition n_attr (i : named) (k : str) : option gval := lookup k (n_attrs i).

(** A coordinate.  [ax_cf]: for the types time, level, latitude and longitude,
    the name of [ax.cf[axtype]] if there is one. *)
Record axis := mkAx {
  ax_info : named;
  ax_cf : list (option str);
  ax_vals : list num;
  ax_time : option (list num)
}.
(** A variable.  [v_miss]: the fill value in its encoding; [v_time]: the values
    as numbers when they are datetimes. *)
Record xvar := mkVar {
  v_info : named;
  v_axes : list axis;
  v_data : pyv;
  v_miss : option pyv;
  v_time : option pyv
}.
Definition v_name (v : xvar) : str := n_name (v_info v).
Definition ax_name (a : axis) : str := n_name (ax_info a).
Definition ax_len (a : axis) : nat := length (ax_vals a).
Definition shape (v : xvar) : list nat := map ax_len (v_axes v).
Definition rank (v : xvar) : nat := length (v_axes v).
Definition size_of (v : xvar) : nat := fold_right Nat.mul 1%nat (shape v).

(** xarray_utils.py:17-65 [getBestName].
    Simplification: names and units that are not strings are not modelled. *)
Definition text_of (g : gval) : Res str := match g_val g with PStr s => Ok s | _ => Err EUnmodelled end.
Definition first_name (i : named) : Res str :=
  match n_attr i (lit "long_name"), n_attr i (lit "standard_name"), n_attr i (lit "title") with
  | Some g, _, _ => text_of g
  | None, Some g, _ => text_of g
  | None, None, Some g => text_of g
  | None, None, None => Ok (n_name i)
  end.
Definition units_of (i : named) : Res str :=
  (do u <- (match n_attr i (lit "units") with Some g => text_of g | None => Ok [] end);
   Ok (strip (if is_nil u then n_enc_units i else u)))%res.
Definition getBestName (i : named) : Res str :=
  (do name <- first_name i;
   if is_nil name then Err (ENappy E_Other)
   else
     do units <- units_of i;
     let in_par := [c_lpar] ++ units ++ [c_rpar] in
     let name :=
       if is_nil units then name
       else
         let name := name ++ lit " " ++ in_par in
         if (1 <? count_str in_par name)%nat then replace_str in_par [] name ++ in_par else name in
     Ok (if str_eqb (slice_from name (-2)%Z) (lit "()") then slice_to name (-2)%Z else name))%res.

(** xarray_utils.py:68-83 [getMissingValue] and na_content_collector.py:322-332
    [_resolve_float].  [fill] is -1.e20. *)
Definition getMissingValue (fill : num) (v : xvar) : Res pyv :=
  match v_miss v with
  | None => Ok (PNum fill)
  | Some (PList l) => nth_res l 0
  | Some m => Ok m
  end.

(** xarray_utils.py:129-131: the axes have a cf type in common under two names. *)
Definition cf_conflict (a b : axis) : bool :=
  existsb (fun p => match p with (Some x, Some y) => negb (str_eqb x y) | _ => false end) (combine (ax_cf a) (ax_cf b)).
(** xarray_utils.py:138: equality of two attributes.
    Simplification: units that are not strings are not modelled. *)
Definition same_units (a b : axis) : Res bool :=
  match n_attr (ax_info a) (lit "units"), n_attr (ax_info b) (lit "units") with
  | None, None => Ok true
  | Some x, Some y => (do s <- text_of x; do t <- text_of y; Ok (str_eqb s t))%res
  | _, _ => Ok false
  end.
(** [all(ax1.data != ax2.data)] for arrays of one length. *)
Definition all_differ (a b : list num) : bool := forallb (fun p => negb (num_same (fst p) (snd p))) (combine a b).

(** xarray_utils.py:117-170 [areAxesIdentical] with [is_subset == False]. *)
Definition areAxesIdentical (a b : axis) : Res bool :=
  if cf_conflict a b then Ok false
  else if negb (str_eqb (ax_name a) (ax_name b)) then Ok false
  else
    (do u <- same_units a b;
     if negb u then Ok false
     else Ok (negb (negb (ax_len a =? ax_len b)%nat || all_differ (ax_vals a) (ax_vals b))))%res.

(** xarray_utils.py:159-164. *)
Fixpoint subset_loop (n : nat) (a : list num) (i : nat) (b : list num) : Res bool :=
  match a with
  | [] => Ok true
  | x :: t => (do y <- nth_res b (n * i); if num_same y x then subset_loop n t (S i) b else Ok false)%res
  end.
(** xarray_utils.py:109-114, 117-170 [isAxisRegularlySpacedSubsetOf]: [Some n] for
    the value n. *)
Definition isAxisRegularlySpacedSubsetOf (a b : axis) : Res (option nat) :=
  if cf_conflict a b then Ok None
  else
    (do u <- same_units a b;
     if negb u then Ok None
     else if (ax_len a =? 0)%nat then Err EZeroDivision
     else if negb (ax_len b mod ax_len a =? 0)%nat then Ok None
     else
       let n := (ax_len b / ax_len a)%nat in
       do s <- subset_loop n (ax_vals a) 0 (ax_vals b);
       Ok (if s then Some n else None))%res.

(** xarray_utils.py:227-258 [is_time] and :295-303 [get_interval]. *)
Definition is_time (a : axis) : bool := match ax_time a with Some _ => true | None => false end.
Definition ax_nums (a : axis) : list num := match ax_time a with Some l => l | None => ax_vals a end.
Definition interval (l : list num) (i j : nat) : Res num :=
  (do y <- nth_res l j; do x <- nth_res l i; Ok (num_minus y x))%res.

(** xarray_utils.py:306-331 [getArrayAsList].  For an array without values that
    is not known to be a time by its attributes, [is_time] (:241, :255) raises. *)
Fixpoint fillna (miss : pyv) (v : pyv) : pyv :=
  match v with
  | PNum x => if num_isnan x then miss else PNum x
  | PList l => PList (map (fillna miss) l)
  | _ => v
  end.
Definition getArrayAsList (v : xvar) (miss : pyv) : Res pyv :=
  match v_time v with
  | Some l => Ok l
  | None => if (size_of v =? 0)%nat then Err EIndexError else Ok (fillna miss (v_data v))
  end.
End Xarray.
Arguments gval : clear implicits. Arguments named : clear implicits. Arguments axis : clear implicits. Arguments xvar : clear implicits.
