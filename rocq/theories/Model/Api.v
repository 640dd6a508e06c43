(** nappy/nappy_api.py: the conversions, and nappy/nc_interface/nc_to_na.py and
    na_to_nc.py: what they add to their base classes.

    Simplifications: the content of input files is given instead of their names
    where only one file is read; a NetCDF file is a list of variables in the
    order of the file with its attributes; variables with the same name do not
    occur in a NetCDF file. *)
From Coq Require Import List NArith ZArith Bool.
From Verif Require Import Py.Str Py.Res Py.Num Py.Arith Model.Dict Model.TextParser Model.CommonUtils Model.NAWrite Model.NARead
  Model.NACore Model.Utils Model.NCWrite Model.Xarray Model.Collector Model.ToXarray.
Import ListNotations.

(** config/nappy.ini:4, [default_delimiter]: four spaces. *)
Definition default_delimiter : str := lit "    ".

Section Api.
Context {num : Type} `{NumOps num} `{ArithOps num}.
Local Notation pyv := (pyv num).
Local Notation na := (na num).
Local Notation xvar := (xvar num).
Local Notation gval := (gval num).

(** nappy_api.py:214-238 [convertNAToCSV].  [content] is the content of
    [na_file]; [fmt] is [default_float_format], [ann] are the annotations.  The
    argument [no_header] is not used. *)
Definition convertNAToCSV (fmt : num -> str) (ann : str -> option str) (na_file content : str) (csv_file : option str)
    (annotation no_header : bool) (fs : disk) : Res unit * disk :=
  match read_file content 0 with
  | Err e => (Err e, fs)
  | Ok (_, na_dict) =>
      let csv_file := match csv_file with Some f => f | None => getFileNameWithNewExtension na_file (lit "csv") end in
      put_file (mkOpts (lit ",") fmt annotation ann) false csv_file na_dict fs
  end.

(** ** nc_to_na.py *)
Record dataset := mkDs { ds_vars : list xvar; ds_attrs : list (str * gval) }.
(** The argument [var_ids]: None, a string or a list of strings. *)
Inductive ids := IAll | IOne (s : str) | IList (l : list str).
(** nc_to_na.py:73-75 and 84: a string is a list of one name. *)
Definition wanted (i : ids) (name : str) : bool :=
  match i with IAll => true | IOne s => str_eqb name s | IList l => mem_str name l end.
(** nc_to_na.py:77-81: the values of the attributes called bounds.  A list in an
    attribute is not hashable. *)
Definition bounds_vars (ds : dataset) : Res (list pyv) :=
  mapR (fun g => match g_val g with PList _ => Err ETypeError | v => Ok v end)
       (flat_map (fun v => match n_attr (v_info v) (lit "bounds") with Some g => [g] | None => [] end) (ds_vars ds)).
Definition is_text (s : str) (v : pyv) : bool := match v with PStr t => str_eqb s t | _ => false end.
(** nc_to_na.py:93-97: a variable of rank zero is built again from its value,
    its name and its attributes.
    [get_rank_zero_array_value] is left out: [v_data] is the value. *)
Definition rebuilt (v : xvar) : xvar :=
  if (rank v =? 0)%nat then mkVar (mkNamed (v_name v) (n_attrs (v_info v)) []) [] (v_data v) None None else v.
(** nc_to_na.py:61-102 [_readXarrayFile]. *)
Definition readXarrayFile (ds : dataset) (var_ids : ids) (exclude_vars : list str) (exclude_bounds : bool) : Res (list xvar) :=
  bindR (bounds_vars ds) (fun bounds =>
  Ok (flat_map (fun v =>
    if wanted var_ids (v_name v) then
      if negb (fuzzy_contains (v_name v) exclude_vars) then
        if exclude_bounds && existsb (is_text (v_name v)) bounds then [] else [rebuilt v]
      else []
    else []) (ds_vars ds))).

(** The dictionaries in [self.na_dict_list] after [convert]. *)
Definition na_dicts (r : option (list (collected num))) : list na :=
  match r with
  | None => []
  | Some l => flat_map (fun c => match c_na c with Some d => [d] | None => [] end) l
  end.

(** The attribute for the first date is a numpy array, and the user gives a date:
    the comparison in xarray_to_na.py:300 is then one with an array. *)
Definition date_clash (globals : list (str * gval)) (s : NCWrite.settings (num := num)) : bool :=
  existsb (fun p => str_eqb (fst p) (lit "first_valid_date_of_data") && g_np (snd p)) globals &&
  existsb (fun p => key_beq (fst p) kDATE) (st_overriders s).
(** The arguments of nappy_api.py:239 [convertNCToNA] that are passed on, and the
    configuration. *)
Record nc_args := mkNcArgs {
  n_env : env num; n_settings : NCWrite.settings (num := num);   (* with na_items_to_override *)
  n_var_ids : ids; n_exclude : list str; n_ffi : option Z;
  n_fmt : num -> str; n_size_limit : option Z; n_annotation : bool; n_ann : str -> option str; n_no_header : bool
}.
(** nappy_api.py:239-295 [convertNCToNA]: the returned list of names, and the
    disk.  [fuel]: a bound for the loop of the size limit.  Writing in the case
    [date_clash] is left to [Model/NumpyDate]. *)
Definition convertNCToNA (fuel : nat) (a : nc_args) (nc_file : str) (ds : dataset) (na_file : option str)
    (only_return_file_names : bool) (delimiter : str) (fs : disk) : Res (list str) * disk :=
  let na_file := match na_file with Some f => f | None => getFileNameWithNewExtension nc_file (lit "na") end in
  match bindR (readXarrayFile ds (n_var_ids a) (n_exclude a) true) (convert (n_env a) (n_ffi a) (ds_attrs ds)) with
  | Err e => (Err e, fs)
  | Ok r =>
      let dicts := na_dicts r in
      if only_return_file_names then (Ok (constructNAFileNames na_file (length dicts)), fs)
      else if date_clash (ds_attrs ds) (n_settings a) then (Err EUnmodelled, fs)
      else
        match writeNAFiles fuel (n_settings a) (mkOpts delimiter (n_fmt a) (n_annotation a) (n_ann a)) (n_no_header a)
                (n_size_limit a) na_file dicts fs with
        | (Ok (names, _), fs') => (Ok names, fs')
        | (Err e, fs') => (Err e, fs')
        end
  end.
(** nappy_api.py:298-308 [convertNCToCSV].  [na_file] and [delimiter]: what the
    caller put into [arg_dict], if anything. *)
Definition convertNCToCSV (fuel : nat) (a : nc_args) (nc_file : str) (ds : dataset) (csv_file na_file : option str)
    (only_return_file_names : bool) (delimiter : option str) (fs : disk) : Res (list str) * disk :=
  match csv_file with
  | None => convertNCToNA fuel a nc_file ds (Some (getFileNameWithNewExtension nc_file (lit "csv"))) only_return_file_names (lit ",") fs
  | Some _ =>
      convertNCToNA fuel a nc_file ds na_file only_return_file_names
        (match delimiter with Some d => d | None => default_delimiter end) fs
  end.

(** ** From NASA Ames *)
(** The settings with which nappy_api.py:396-430 construct the converter: no
    attributes, time units or renaming given, a warning for time units.
    [answers], [now] and [version] come from outside. *)
Definition plain_set (s : select) (answers : list str) (now version : str) : ToXarray.settings (num := num) :=
  mkSet s SAll [] None true answers [] None now version.
(** nappy_api.py:396-414 [readXarrayObjectsFromNA]. *)
Definition readXarrayObjectsFromNA (answers : list str) (now version content : str) : Res objects :=
  bindR (read_file content 0) (fun r => toXarray (plain_set SAll answers now version) (snd r)).
(** nappy_api.py:417-430 [getXarrayVariableFromNA]; [var]: an integer or a
    string, so a selection of one. *)
Inductive which := WNum (i : nat) | WName (s : str).
Definition getXarrayVariableFromNA (answers : list str) (now version content : str) (var : which) : Res xvar :=
  bindR (read_file content 0) (fun r =>
  bindR (toXarray (plain_set (match var with WNum i => SNums [i] | WName s => SStrs [s] end) answers now version) (snd r))
        (fun o => nth_res (o_vars o) 0)).

(** ** na_to_nc.py *)
(** The value of an attribute for [fix_ints].  [np.int32(v)] of an integer out of
    range raises OverflowError (numpy 2) and wraps around in older versions; the
    model has the error.  [g_np] says that a value (or every element of a list)
    is a numpy number; those are no [int], and arrays are no [Sequence]. *)
Definition in_int32 (z : Z) : bool := ((-2147483648 <=? z) && (z <=? 2147483647))%Z.
Definition is_int (v : pyv) : bool := match v with PInt _ => true | _ => false end.
Definition to_np_int (v : pyv) : Res pyv :=
  match v with
  | PInt z => if in_int32 z then Ok (PInt z) else Err EValueError
  | _ => Err ETypeError
  end.
(** na_to_nc.py:63-79 [fix_ints].  A string is a [Sequence], too; its elements
    are strings, so only the empty string has only integers in it. *)
Definition fix_int (g : gval) : Res gval :=
  if g_np g then Ok g
  else
    match g_val g with
    | PStr [] => Ok (mkG true (PList []))
    | PList l => if forallb is_int l then bindR (mapR to_np_int l) (fun l' => Ok (mkG true (PList l'))) else Ok g
    | PInt z => bindR (to_np_int (PInt z)) (fun v => Ok (mkG true v))
    | _ => Ok g
    end.
(** na_to_nc.py:81-86 [fix_attrs]. *)
Definition fix_attrs (l : list (str * gval)) : Res (list (str * gval)) :=
  mapR (fun p => bindR (fix_int (snd p)) (fun g => Ok (fst p, g))) l.
End Api.
Arguments dataset : clear implicits. Arguments nc_args : clear implicits.
