(** nc_interface/xarray_utils.py:288-292 [datetimes_to_nums], :295-303
    [get_interval], :306-331 [getArrayAsList] and :334-342 [resolve_array] for
    arrays whose values may be dates, as xarray gives them.

    In [Model.Xarray] the numbers of a time coordinate are part of the coordinate;
    here they are found from its values.  [is_time] is the one of [Model.Coord].

    Simplifications: the values of an array of several dimensions are one list,
    and [tolist] leaves it so; a value is a number or a date
    ([cftime.datetime]); the numbers of arrays of type datetime64, which
    nc_to_na.py:70 ([use_cftime=True]) never gives, are not modelled;
    [cftime.date2num] is a parameter that gives the number of one date for units
    and a calendar, or nothing if it does not know them (ValueError), and does
    not take numbers (TypeError); Dask arrays ([resolve_array]) have the values
    that they compute. *)
From Coq Require Import List NArith ZArith Bool.
From Verif Require Import Py.Str Py.Res Py.Num Py.Arith Model.Xarray Model.Coord.
Import ListNotations.
Open Scope res_scope.

Section Time.
Context {num date : Type} `{ArithOps num}.
(** [cftime.date2num] of one date: units, calendar. *)
Context (date2num : str -> str -> date -> option num).

Inductive cell := Number (x : num) | Date (d : date).
(** [encoding] of a coordinate: units and calendar. *)
Record encoding := mkEnc { e_units : option str; e_calendar : option str }.
Record timed := mkTimed {
  t_coord : coord;                        (* name, attributes, shape, kind of the values *)
  t_values : list cell;
  t_coords : list (str * encoding)        (* coordinates of the array *)
}.
Definition is_date (c : cell) : bool := match c with Date _ => true | Number _ => false end.

(** xarray_utils.py:288-292 [datetimes_to_nums]: [da.time] is the coordinate of
    this name. *)
Definition num_of (units calendar : str) (c : cell) : Res num :=
  match c with
  | Date d => of_opt EValueError (date2num units calendar d)
  | Number _ => Err ETypeError
  end.
Definition datetimes_to_nums (a : timed) : Res (list num) :=
  do enc <- of_opt EAttributeError (lookup (lit "time") (t_coords a));
  do units <- of_opt EKeyError (e_units enc);
  let calendar := match e_calendar enc with Some c => c | None => lit "standard" end in
  match cd_kind (t_coord a) with
  | Datetime64 => Err EUnmodelled
  | _ => mapR (num_of units calendar) (t_values a)
  end.

(** The difference of two values of [da.data]: two dates give a timedelta. *)
Definition plain (c : cell) : Res num := match c with Number x => Ok x | Date _ => Err EUnmodelled end.
(** xarray_utils.py:295-303 [get_interval] of an array of one dimension. *)
Definition get_interval (a : timed) (i j : nat) (handle_datetimes : bool) : Res num :=
  do t <- is_time (t_coord a) false;
  do arr <- (if t && handle_datetimes then datetimes_to_nums a else mapR plain (t_values a));
  do y <- nth_res arr j;
  do x <- nth_res arr i;
  Ok (num_minus y x).

(** xarray_utils.py:306-331 [getArrayAsList]. *)
Definition fill (miss : num) (c : cell) : cell := match c with Number x => if num_isnan x then Number miss else c | Date _ => c end.
Definition getArrayAsList (a : timed) (miss : option num) (handle_datetimes : bool) : Res (list cell) :=
  do t <- is_time (t_coord a) true;
  if t && handle_datetimes then do l <- datetimes_to_nums a; Ok (map Number l)
  else
    match miss with
    | Some m => if existsb is_date (t_values a) then Err ETypeError else Ok (map (fill m) (t_values a))
    | None => Ok (t_values a)
    end.
End Time.
Arguments cell : clear implicits. Arguments timed : clear implicits.
