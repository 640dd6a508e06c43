(** The command line programs: nappy/script/nc2na.py, nc2csv.py and na2nc.py.

    Simplifications: the text of the messages of [exitNicely] is left out; the
    argument dictionaries are records. *)
From Coq Require Import List NArith ZArith Bool.
From Verif Require Import Py.Str Py.Res Py.Num Model.CommonUtils Model.Utils Model.Getopt Model.Api.
Import ListNotations.

(** A program goes on, ends with a message ([exitNicely], nc2na.py:51-55), or
    raises. *)
Inductive run (A : Type) := Done (a : A) | Exit | Raise (e : exn).
Arguments Done {A}. Arguments Exit {A}. Arguments Raise {A}.
Definition bindX {A B} (m : run A) (f : A -> run B) : run B :=
  match m with Done a => f a | Exit => Exit | Raise e => Raise e end.
Definition of_res {A} (m : Res A) : run A := match m with Ok a => Done a | Err e => Raise e end.
(** The loop over the options. *)
Fixpoint each {A} (f : A -> option_value -> run A) (l : list option_value) (a : A) : run A :=
  match l with
  | [] => Done a
  | o :: t => bindX (f a o) (each f t)
  end.

(** ** nc2na.py and nc2csv.py *)
(** The keys of the dictionary that nc2na.py:57-116 [parseArgs] returns. *)
Record nc_cmd := mkNcCmd {
  x_nc_file : option str; x_var_ids : option (list str); x_requested_ffi : option Z;
  x_float_format : str; x_delimiter : str; x_size_limit : option Z;
  x_exclude_vars : list str; x_override : list (str * str); x_names_only : bool;
  x_na_file : option str; x_no_header : bool; x_annotation : bool }.
(** config/nappy.ini:5 [default_float_format] *)
Definition default_float_format : str := lit "%.10g".
(** nc2na.py:62-74: the defaults. *)
Definition nc_defaults : nc_cmd :=
  mkNcCmd None None None default_float_format default_delimiter None [] [] false None false false.
(** nc2na.py:81-109: one option. *)
Definition nc_option (a : nc_cmd) (p : option_value) : run nc_cmd :=
  let (arg, value) := p in
  match a with
  | mkNcCmd nc_file var_ids ffi fmt delim limit excl over names na_file no_header annot =>
    if str_eqb arg (lit "-i") then Done (mkNcCmd (Some value) var_ids ffi fmt delim limit excl over names na_file no_header annot)
    else if str_eqb arg (lit "-o") then Done (mkNcCmd nc_file var_ids ffi fmt delim limit excl over names (Some value) no_header annot)
    else if str_eqb arg (lit "-v") then Done (mkNcCmd nc_file (Some (split_chr c_comma value)) ffi fmt delim limit excl over names na_file no_header annot)
    else if str_eqb arg (lit "--ffi") then
      bindX (of_res (of_opt EValueError (int_of_str value))) (fun z =>
        Done (mkNcCmd nc_file var_ids (Some z) fmt delim limit excl over names na_file no_header annot))
    else if str_eqb arg (lit "-f") then Done (mkNcCmd nc_file var_ids ffi value delim limit excl over names na_file no_header annot)
    else if str_eqb arg (lit "-d") then Done (mkNcCmd nc_file var_ids ffi fmt value limit excl over names na_file no_header annot)
    else if str_eqb arg (lit "--limit_ffi_1001_rows") then
      bindX (of_res (of_opt EValueError (int_of_str value))) (fun z =>
        Done (mkNcCmd nc_file var_ids ffi fmt delim (Some z) excl over names na_file no_header annot))
    else if str_eqb arg (lit "-e") then Done (mkNcCmd nc_file var_ids ffi fmt delim limit (split_chr c_comma value) over names na_file no_header annot)
    else if str_eqb arg (lit "--overwrite-metadata") then
      bindX (of_res (makeDictFromCommaSepString value)) (fun d =>
        Done (mkNcCmd nc_file var_ids ffi fmt delim limit excl d names na_file no_header annot))
    else if str_eqb arg (lit "--names-only") then Done (mkNcCmd nc_file var_ids ffi fmt delim limit excl over true na_file no_header annot)
    else if str_eqb arg (lit "--no-header") then Done (mkNcCmd nc_file var_ids ffi fmt delim limit excl over names na_file true annot)
    else if str_eqb arg (lit "--annotated") then Done (mkNcCmd nc_file var_ids ffi fmt delim limit excl over names na_file no_header true)
    else Exit
  end.
(** nc2na.py:75-77 *)
Definition nc_short : str := lit "i:o:v:f:d:l:e:".
Definition nc_long : list str := map lit ["ffi="; "overwrite-metadata="; "names-only"; "no-header"; "annotated"]%pylit.
(** nc2na.py:57-116 and nc2csv.py:56-114 [parseArgs]: the same text. *)
Definition nc_parseArgs (args : list str) : run nc_cmd :=
  match getopt args nc_short nc_long with
  | OptError _ => Exit
  | Opts (arg_list, _) =>
      bindX (each nc_option arg_list nc_defaults) (fun a =>
      match x_nc_file a with
      | Some (_ :: _) => Done a
      | _ => Exit
      end)
  end.
(** nc2csv.py:140-147: the program that is run as a file.  setup.py:70 installs
    the function [nc2csv] itself, which is [nc_parseArgs] and the conversion. *)
Definition nc2csv_main (args : list str) : run nc_cmd :=
  if existsb (str_eqb (lit "-d")) args then Exit else nc_parseArgs (args ++ map lit ["-d"; ","]%pylit).

(** ** na2nc.py *)
(** The keys of the dictionary that na2nc.py:46-106 [parseArgs] returns. *)
Record na_cmd := mkNaCmd {
  y_na_file : option str; y_mode : str; y_globals : list (str * str); y_rename : list (str * str);
  y_units : option str; y_warning : bool; y_nc_file : option str }.
(** na2nc.py:52-62: the defaults; [variables] and [aux_variables] are always
    [all], because the options that change them end the program. *)
Definition na_defaults : na_cmd := mkNaCmd None (lit "w") [] [] None true None.
(** na2nc.py:70-93: one option. *)
Definition na_option (a : na_cmd) (p : option_value) : run na_cmd :=
  let (arg, value) := p in
  match a with
  | mkNaCmd na_file mode globals rename units warning nc_file =>
    if str_eqb arg (lit "-i") then Done (mkNaCmd (Some value) mode globals rename units warning nc_file)
    else if str_eqb arg (lit "-o") then Done (mkNaCmd na_file mode globals rename units warning (Some value))
    else if str_eqb arg (lit "-m") then Done (mkNaCmd na_file value globals rename units warning nc_file)
    else if str_eqb arg (lit "-v") then Exit
    else if str_eqb arg (lit "-a") then Exit
    else if str_eqb arg (lit "-g") then
      bindX (of_res (makeListFromCommaSepString value)) (fun l => Done (mkNaCmd na_file mode l rename units warning nc_file))
    else if str_eqb arg (lit "-t") then Done (mkNaCmd na_file mode globals rename (Some value) warning nc_file)
    else if str_eqb arg (lit "-n") then Done (mkNaCmd na_file mode globals rename units false nc_file)
    else if str_eqb arg (lit "-r") then
      bindX (of_res (makeDictFromCommaSepString value)) (fun d => Done (mkNaCmd na_file mode globals d units warning nc_file))
    else Exit
  end.
Definition na_short : str := lit "i:o:m:v:a:g:t:nr:".
(** na2nc.py:46-106 [parseArgs] *)
Definition na_parseArgs (args : list str) : run na_cmd :=
  match getopt args na_short [] with
  | OptError _ => Exit
  | Opts (arg_list, _) =>
      bindX (each na_option arg_list na_defaults) (fun a =>
      match y_na_file a with
      | Some ((_ :: _) as fn) =>
          match y_nc_file a with
          | Some (_ :: _) => Done a
          | _ =>
              let base := if str_eqb (slice_from fn (-3)%Z) (lit ".na") then slice_to fn (-3)%Z else fn in
              Done (mkNaCmd (y_na_file a) (y_mode a) (y_globals a) (y_rename a) (y_units a) (y_warning a) (Some (base ++ lit ".nc")))
          end
      | _ => Exit
      end)
  end.
