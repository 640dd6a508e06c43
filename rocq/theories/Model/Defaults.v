(** utils/common_utils.py:139-152 [getDebug], [getDefault], and the global
    variables that are made from nappy.ini when the modules are imported
    (nc_interface/xarray_to_na.py:31-35, na_file/na_file.py:27-28,
    nappy_api.py:140-142).

    Simplifications: the configuration has been read before (C94, C95); of the
    texts that [eval] can evaluate only True and False are modelled, any other
    text is [EUnmodelled]. *)
From Coq Require Import List NArith ZArith Bool.
From Verif Require Import Py.Str Py.Res Model.Dict Model.Xarray Model.ParseConfig Model.NCWrite.
Import ListNotations.
Open Scope res_scope.

(** common_utils.py:147-152 [getDefault]: a missing section or item is a
    KeyError; the value is a string, or a tuple if the sign & stands in it. *)
Definition getDefault (c : config) (item : str) : Res entry :=
  do main <- of_opt EKeyError (lookup (lit "main") c);
  do p <- of_opt EKeyError (find (fun p => entry_eqb (fst p) (One item)) main);
  Ok (snd p).
(** common_utils.py:139-144 [getDebug]; [eval] of a tuple is a TypeError. *)
Definition getDebug (c : config) : Res bool :=
  do v <- getDefault c (lit "DEBUG");
  match v with
  | One s => if str_eqb s (lit "True") then Ok true else if str_eqb s (lit "False") then Ok false else Err EUnmodelled
  | Tuple _ => Err ETypeError
  end.
(** Python's [bool] of a string or a tuple: whether it has any element. *)
Definition truth (v : entry) : bool := match v with One s => negb (is_nil s) | Tuple l => negb (is_nil l) end.

(** xarray_to_na.py:31-35 *)
Record constants := mkConstants {
  k_debug : bool;
  k_delimiter : entry;
  k_format : entry;
  k_rule : entry;
  k_headers : bool
}.
Definition import_constants (c : config) : Res constants :=
  do debug <- getDebug c;
  do delimiter <- getDefault c (lit "default_delimiter");
  do format <- getDefault c (lit "default_float_format");
  do r <- getDefault c (lit "comment_override_rule");
  do headers <- getDefault c (lit "add_column_headers");
  Ok (mkConstants debug delimiter format r (truth headers)).

(** xarray_to_na.py:285-296: the comparisons [comment_override_rule == "..."];
    a tuple equals no string. *)
Definition rule_of (v : entry) : rule :=
  match v with
  | One s => if str_eqb s (lit "replace") then RReplace
             else if str_eqb s (lit "insert") then RInsert
             else if str_eqb s (lit "extend") then RExtend else ROther
  | Tuple _ => ROther
  end.
(** The settings with which the files are written. *)
Definition settings_of {num} (k : constants) (overriders : list (key * pyv num)) : NCWrite.settings :=
  mkSettings (rule_of (k_rule k)) (k_headers k) overriders.
