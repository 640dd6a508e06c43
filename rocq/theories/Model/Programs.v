(** nappy/nc_interface/na_to_nc.py: writing the NetCDF file; nappy/nappy_api.py:
    [convertNAToNC]; the programs na2nc and nc2na from the command line to the
    files.

    Simplifications: NetCDF and NASA Ames files are kept apart, each by name; a
    NetCDF file is a data set (see Model/Api); xarray can write every data set
    and never fails when it does; what is printed is left out. *)
From Coq Require Import List NArith ZArith Bool.
From Verif Require Import Py.Str Py.Res Py.Num Py.Arith Model.Dict Model.TextParser Model.CommonUtils Model.NAWrite Model.NARead
  Model.NACore Model.Utils Model.NCWrite Model.Xarray Model.Collector Model.ToXarray Model.Api Model.Getopt Model.CommandLine.
Import ListNotations.

Section Programs.
Context {num : Type} `{NumOps num} `{ArithOps num}.
Local Notation xvar := (xvar num).
Local Notation dataset := (dataset num).
Open Scope res_scope.

(** The NetCDF files by name. *)
Definition nc_disk := str -> option dataset.
Definition put_nc (fs : nc_disk) (name : str) (ds : dataset) : nc_disk := fun n => if str_eqb n name then Some ds else fs n.

(** na_to_nc.py:101: [fix_attrs] of one variable. *)
Definition fix_variable (v : xvar) : Res xvar :=
  do a <- fix_attrs (n_attrs (v_info v));
  Ok (mkVar (mkNamed (v_name v) a (n_enc_units (v_info v))) (v_axes v) (v_data v) (v_miss v) (v_time v)).
(** na_to_nc.py:97-106: the data set. *)
Definition nc_content (o : objects (num := num)) : Res dataset :=
  do vs <- mapR fix_variable (o_vars o ++ o_aux o);
  let variables := dict_of_list (map (fun v => (v_name v, v)) vs) in
  do attrs <- fix_attrs (dict_of_list (o_globals o));
  Ok (mkDs (map snd variables) attrs).
(** na_to_nc.py:88-112 [writeNCFile] of a converter that has converted.  [mode]
    is not used. *)
Definition writeNCFile (o : objects) (file_name mode : str) (fs : nc_disk) : Res unit * nc_disk :=
  match nc_content o with
  | Err e => (Err e, fs)
  | Ok ds => (Ok tt, put_nc fs file_name ds)
  end.
(** nappy_api.py:172-211 [convertNAToNC]; [content] is the content of
    [na_file]. *)
Definition convertNAToNC (s : ToXarray.settings (num := num)) (na_file content : str) (nc_file : option str) (mode : str) (fs : nc_disk)
  : Res str * nc_disk :=
  match bindR (read_file content 0) (fun r => toXarray s (snd r)) with
  | Err e => (Err e, fs)
  | Ok o =>
      let nc_file := match nc_file with Some f => f | None => getFileNameWithNewExtension na_file (lit "nc") end in
      match writeNCFile o nc_file mode fs with
      | (Err e, fs') => (Err e, fs')
      | (Ok _, fs') => (Ok nc_file, fs')
      end
  end.

(** na2nc.py:109-119 [na2nc].  [files]: the NASA Ames files; the error for a file
    that does not exist is [EValueError] here. *)
Definition na2nc (answers : list str) (now version : str) (args : list str) (files : str -> option str) (fs : nc_disk)
  : run str * nc_disk :=
  match na_parseArgs args with
  | Exit => (Exit, fs)
  | Raise e => (Raise e, fs)
  | Done c =>
      match y_na_file c with
      | None => (Exit, fs)      (* does not happen: [parseArgs] has exited *)
      | Some na_file =>
          match files na_file with
          | None => (Raise EValueError, fs)
          | Some content =>
              let s := mkSet SAll SAll (map (fun p => (fst p, gstr (snd p))) (y_globals c)) (y_units c) (y_warning c) answers
                         (y_rename c) None now version in
              let (r, fs') := convertNAToNC s na_file content (y_nc_file c) (y_mode c) fs in
              (of_res r, fs')
          end
      end
  end.

(** The keys that may be overridden, xarray_to_na.py:41-43, by name; others are
    skipped, :276-277. *)
Definition override_keys : list (str * key) :=
  [(lit "DATE", kDATE); (lit "RDATE", kRDATE); (lit "ANAME", kANAME); (lit "MNAME", kMNAME); (lit "ONAME", kONAME);
   (lit "ORG", kORG); (lit "SNAME", kSNAME); (lit "VNAME", kVNAME); (lit "SCOM", kSCOM); (lit "NCOM", kNCOM)].
Definition overriders (l : list (str * str)) : list (key * pyv num) :=
  flat_map (fun p => match lookup (fst p) override_keys with Some k => [(k, PStr (snd p))] | None => [] end) l.
(** nc2na.py:119-142 [nc2na].  [r], [headers] and [local] (the section
    [na_attributes] of the file of local attributes, xarray_to_na.py:250-258) are
    from the configuration, [fmt_of] is the meaning of a format, [files] are the NetCDF files, [fs] is
    the disk of NASA Ames files. *)
Definition nc2na (fuel : nat) (e : env num) (r : rule) (headers : bool) (local : list (str * str)) (fmt_of : str -> num -> str) (ann : str -> option str)
    (args : list str) (files : str -> option dataset) (fs : disk) : run (list str) * disk :=
  match nc_parseArgs args with
  | Exit => (Exit, fs)
  | Raise e => (Raise e, fs)
  | Done c =>
      match x_nc_file c with
      | None => (Exit, fs)      (* does not happen: [parseArgs] has exited *)
      | Some nc_file =>
          match files nc_file with
          | None => (Raise EValueError, fs)
          | Some ds =>
              let a := mkNcArgs e (mkSettings r headers (overriders (dict_of_list (local ++ x_override c))))
                         (match x_var_ids c with Some l => IList l | None => IAll end) (x_exclude_vars c) (x_requested_ffi c)
                         (fmt_of (x_float_format c)) (x_size_limit c) (x_annotation c) ann (x_no_header c) in
              let (r, fs') := convertNCToNA fuel a nc_file ds (x_na_file c) (x_names_only c) (x_delimiter c) fs in
              (of_res r, fs')
          end
      end
  end.
End Programs.
