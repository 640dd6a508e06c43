(** nappy/nc_interface/xarray_utils.py: which coordinates are latitude,
    longitude, level and time, and the coordinates of a variable.

    Simplifications: attribute access on a DataArray ([hasattr], [coord.axis])
    finds only the entries of [coord.attrs]; attributes are texts; the kind of
    all values is the same. *)
From Coq Require Import List NArith ZArith Bool.
From Verif Require Import Py.Str Py.Res.
Import ListNotations.

(** Values: datetime64, objects of class [cftime.datetime] or anything else. *)
Inductive kind := Datetime64 | Cftime | Plain.
(** [cd_cf key]: the name of [coord.cf[key]] when [key in coord.cf] (package
    cf_xarray).  [cd_shape]: the lengths of the dimensions. *)
Record coord := mkCoord {
  cd_name : str;
  cd_attrs : list (str * str);
  cd_cf : str -> option str;
  cd_shape : list nat;
  cd_kind : kind
}.
Fixpoint get (k : str) (l : list (str * str)) : option str :=
  match l with
  | [] => None
  | (k', v) :: t => if str_eqb k k' then Some v else get k t
  end.
Definition attr_is (c : coord) (k v : str) : bool :=
  match get k (cd_attrs c) with Some w => str_eqb w v | None => false end.
Definition cf_is (c : coord) (k : str) : bool :=
  match cd_cf c k with Some n => str_eqb n (cd_name c) | None => false end.

(** xarray_utils.py:173-187. *)
Definition is_latitude (c : coord) : bool := cf_is c (lit "latitude") || attr_is c (lit "standard_name") (lit "latitude").
(** xarray_utils.py:190-203. *)
Definition is_longitude (c : coord) : bool := cf_is c (lit "longitude") || attr_is c (lit "standard_name") (lit "longitude").
(** xarray_utils.py:206-224; :217 [x == "up" or "down"] is a true value for every
    [x]. *)
Definition is_level (c : coord) : bool :=
  cf_is c (lit "vertical") ||
  (match get (lit "positive") (cd_attrs c) with Some w => str_eqb w (lit "up") || negb (is_nil (lit "down")) | None => false end) ||
  attr_is c (lit "axis") (lit "Z").
(** xarray_utils.py:227-258 [is_time].  :241 [np.atleast_1d(values)[0]] raises
    IndexError if the first dimension is empty, and is an array (not a datetime)
    if there are more dimensions; :251 [len(coord)] raises TypeError without
    dimension; :255 [flat[0]] raises IndexError without values. *)
Definition first_exists (shape : list nat) : bool := match shape with O :: _ => false | _ => true end.
Definition is_time (c : coord) (test_by_values : bool) : Res bool :=
  if cf_is c (lit "time") then Ok true
  else match cd_kind c with
  | Datetime64 => Ok true
  | k =>
      if negb (first_exists (cd_shape c)) then Err EIndexError
      else if (match k with Cftime => true | _ => false end) && (length (cd_shape c) <=? 1)%nat then Ok true
      else if attr_is c (lit "axis") (lit "T") || attr_is c (lit "standard_name") (lit "time") then Ok true
      else if test_by_values then
        match cd_shape c with
        | [] => Err ETypeError
        | O :: _ => Ok false
        | _ => if (fold_right Nat.mul 1%nat (cd_shape c) =? 0)%nat then Err EIndexError
               else Ok (match k with Cftime => true | _ => false end)
        end
      else Ok false
  end.

(** A variable: names and lengths of its dimensions in order, and the coordinates
    by name ([da.dims], [da.shape], [da.coords]). *)
Record array := mkArray { ar_dims : list (str * nat); ar_coords : list (str * coord) }.
Fixpoint find_by {A} (n : str) (l : list (str * A)) : option A :=
  match l with
  | [] => None
  | (k, c) :: t => if str_eqb n k then Some c else find_by n t
  end.
(** [da.coords[name]]: for a dimension without coordinate xarray makes one with
    the values 0, 1, 2, ... and without attributes; KeyError for other names. *)
Definition counting (n : str) (len : nat) : coord := mkCoord n [] (fun _ => None) [len] Plain.
Definition coord_of (a : array) (n : str) : Res coord :=
  match find_by n (ar_coords a) with
  | Some c => Ok c
  | None => match find_by n (ar_dims a) with Some len => Ok (counting n len) | None => Err EKeyError end
  end.
(** xarray_utils.py:86-90. *)
Definition getAxisList (a : array) : Res (list coord) := mapR (coord_of a) (map fst (ar_dims a)).
(** xarray_utils.py:261-268; python's negative indices count from the end. *)
Definition get_coord_by_index (a : array) (i : Z) : Res coord :=
  let n := Z.of_nat (length (ar_dims a)) in
  let i := if (i <? 0)%Z then (i + n)%Z else i in
  (do name <- (if (i <? 0)%Z then Err EIndexError else nth_res (map fst (ar_dims a)) (Z.to_nat i));
   coord_of a name)%res.
(** xarray_utils.py:271-276: a set; here a list without repetitions. *)
Definition set_add (x : str) (l : list str) : list str := if existsb (str_eqb x) l then l else l ++ [x].
Definition get_dim_names_for_variables (vs : list array) : list str :=
  fold_left (fun s v => fold_left (fun s d => set_add d s) (map fst (ar_dims v)) s) vs [].
