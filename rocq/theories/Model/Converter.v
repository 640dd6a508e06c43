(** The life of a converter object: nappy/nc_interface/xarray_to_na.py [XarrayToNA]
    and [XarrayDatasetToNA], nc_to_na.py [NCToNA], xarray_objs_to_na_files.py
    [XarrayObjectsToNAFile].

    [Model.Collector] and [Model.NCWrite] say what one call computes; here is what
    the object keeps from one call to the next.

    Simplifications: messages are left out, and an exception while they are put
    together; the dictionaries of [self.na_dict_list] share no list; an exception
    in [openNAFile] leaves the dictionary as it is. *)
From Coq Require Import List NArith ZArith Bool.
From Verif Require Import Py.Str Py.Res Py.Num Py.Arith Model.Dict Model.CommonUtils Model.NAWrite Model.Utils Model.NCWrite Model.Xarray Model.Collector
  Model.Api Model.Lifecycle.
Import ListNotations.

Section Converter.
Context {num : Type} `{NumOps num} `{ArithOps num}.
Local Notation pyv := (pyv num).
Local Notation na := (na num).
Local Notation xvar := (xvar num).

Record conv := mkConv {
  cv_env : env num; cv_vars : list xvar; cv_globals : list (str * gval num); cv_ffi : option Z;
  cv_settings : NCWrite.settings (num := num);   (* with na_items_to_override *)
  cv_nc_file : option str;       (* self.nc_file; None: there is no such attribute *)
  cv_converted : bool;
  cv_list : option (list na);    (* self.na_dict_list; None: there is no such attribute *)
  cv_files : option (list str)   (* self.output_files_written; None: there is no such attribute *)
}.
(** xarray_to_na.py:57-71 and 513-535 [__init__]: no name of a source file. *)
Definition new_xarray (E : env num) vars globals ffi s : conv := mkConv E vars globals ffi s None false (Some []) None.
(** nc_to_na.py:34-58 [__init__]; [vars] is what [_readXarrayFile] gave. *)
Definition new_nc (E : env num) nc_file vars globals ffi s : conv := mkConv E vars globals ffi s (Some nc_file) false (Some []) None.
(** xarray_objs_to_na_files.py:38-57 [__init__] does not call that of the parent
    classes: neither a name nor a list. *)
Definition new_objects (E : env num) vars globals ffi s : conv := mkConv E vars globals ffi s None false None None.

Definition with_list (x : conv) (converted : bool) (l : option (list na)) (files : option (list str)) : conv :=
  mkConv (cv_env x) (cv_vars x) (cv_globals x) (cv_ffi x) (cv_settings x) (cv_nc_file x) converted l files.

(** xarray_to_na.py:73-130 [convert]: once the conversion has given a list, this
    list is returned.  [c_na] is there for every element, see [Model.Collector]. *)
Definition do_convert (x : conv) : Res (option (list na)) * conv :=
  if cv_converted x then (Ok (cv_list x), x)
  else match convert (cv_env x) (cv_ffi x) (cv_globals x) (cv_vars x) with
       | Err e => (Err e, x)
       | Ok None => (Ok None, x)
       | Ok (Some cs) => (Ok (Some (na_dicts (Some cs))), with_list x true (Some (na_dicts (Some cs))) (cv_files x))
       end.
(** [if not self.converted: self.convert()]. *)
Definition ensure (x : conv) : Res unit * conv :=
  if cv_converted x then (Ok tt, x) else let (r, x') := do_convert x in (bindR r (fun _ => Ok tt), x').

(** xarray_to_na.py:204-227 [constructNAFileNames]. *)
Definition names_now (x : conv) (na_file : option str) : Res (list str) :=
  (do f <- (match na_file with
            | Some f => Ok f
            | None => do nc <- of_opt EAttributeError (cv_nc_file x); Ok (default_na_file nc)
            end);
   do l <- of_opt EAttributeError (cv_list x);
   Ok (constructNAFileNames f (length l)))%res.
Definition do_names (x : conv) (na_file : option str) : Res (list str) * conv :=
  match ensure x with
  | (Err e, x') => (Err e, x')
  | (Ok _, x') => (names_now x' na_file, x')
  end.

(** ** Writing changes the dictionaries of the list *)
(** xarray_to_na.py:273-305: the dictionary is changed item by item. *)
Fixpoint override_all (r : rule) (l : list (key * pyv)) (d : na) : Res unit * na :=
  match l with
  | [] => (Ok tt, d)
  | p :: t => match override r d p with Err e => (Err e, d) | Ok d' => override_all r t d' end
  end.
(** xarray_to_na.py:273-310. *)
Definition prepare_in (s : NCWrite.settings) (d : na) : Res unit * na :=
  match override_all (st_rule s) (st_overriders s) d with
  | (Err e, d') => (Err e, d')
  | (Ok _, d') =>
      if st_headers s then match updateWithColumnHeaders d' with Err e => (Err e, d') | Ok d'' => (Ok tt, d'') end
      else (Ok tt, d')
  end.
(** xarray_to_na.py:324-328.  The writer shares the lists of the dictionary. *)
Definition put_in (o : opts num) (no_header : bool) (name : str) (d : na) (fs : disk) : Res unit * na * disk :=
  match openNAFile_w d with
  | Err e => (Err e, d, fs)
  | Ok (c, d') => let (r, st) := write_body o c no_header (mkW [] [] d') in (r, shared d' (w_na st), sd_set fs name (w_file st))
  end.
(** xarray_to_na.py:312-329.  Files within a size limit are written from copies;
    FFI 1001 changes no list. *)
Definition write_one_in (fuel : nat) (o : opts num) (no_header : bool) (size_limit : option Z) (file_name : str) (d : na)
    (fs : disk) : Res (list str) * na * disk :=
  let whole := match put_in o no_header file_name d fs with
               | (Err e, d', fs') => (Err e, d', fs')
               | (Ok _, d', fs') => (Ok [file_name], d', fs')
               end in
  match size_limit with
  | None => whole
  | Some s =>
      match (do ffi <- get d kFFI;
             match ffi with
             | PInt 1001 => do v <- get d kV; do v0 <- index v 0; do n <- len_v v0; Ok (s <? n)%Z
             | _ => Ok false
             end)%res with
      | Err e => (Err e, d, fs)
      | Ok true => let (r, fs') := writeNAFileSubsets fuel o d file_name s fs in (r, d, fs')
      | Ok false => whole
      end
  end.
(** xarray_to_na.py:262-347: the loop; the second component is the list after it,
    with the dictionaries behind an exception as they were. *)
Fixpoint write_list (fuel : nat) (s : NCWrite.settings) (o : opts num) (no_header : bool) (size_limit : option Z)
    (l : list (str * na)) (fs : disk) : Res (list str) * list na * disk :=
  match l with
  | [] => (Ok [], [], fs)
  | (name, d) :: rest =>
      match prepare_in s d with
      | (Err e, d') => (Err e, d' :: map snd rest, fs)
      | (Ok _, d') =>
          match write_one_in fuel o no_header size_limit name d' fs with
          | (Err e, d'', fs') => (Err e, d'' :: map snd rest, fs')
          | (Ok names, d'', fs') =>
              match write_list fuel s o no_header size_limit rest fs' with
              | (r, ds, fs'') => (bindR r (fun names' => Ok (names ++ names')), d'' :: ds, fs'')
              end
          end
      end
  end.
(** The arguments of [writeNAFiles]. *)
Record wargs := mkWargs { wa_file : option str; wa_opts : opts num; wa_no_header : bool; wa_limit : option Z }.
(** xarray_to_na.py:229-365 [writeNAFiles].  (When the attribute
    [self.na_dict_list] is missing, [constructNAFileNames] has raised before.)
    The case [date_clash] is not modelled here. *)
Definition do_write (fuel : nat) (x : conv) (w : wargs) (fs : disk) : Res (list str) * conv * disk :=
  if date_clash (cv_globals x) (cv_settings x) then (Err EUnmodelled, x, fs) else
  match ensure x with
  | (Err e, x1) => (Err e, x1, fs)
  | (Ok _, x1) =>
      match do_names x1 (wa_file w) with
      | (Err e, x2) => (Err e, x2, fs)
      | (Ok names, x2) =>
          match cv_list x2 with
          | None => (Err EAttributeError, x2, fs)
          | Some l =>
              match write_list fuel (cv_settings x2) (wa_opts w) (wa_no_header w) (wa_limit w) (combine names l) fs with
              | (Ok files, l', fs') => (Ok files, with_list x2 (cv_converted x2) (Some l') (Some files), fs')
              | (Err e, l', fs') => (Err e, with_list x2 (cv_converted x2) (Some l') (cv_files x2), fs')
              end
          end
      end
  end.

(** ** What can be done with the object *)
Inductive cop := CConvert | CNames (na_file : option str) | CWrite (fuel : nat) (w : wargs).
(** The object and the disk after a sequence of calls, whatever their outcomes. *)
Definition call (p : conv * disk) (c : cop) : conv * disk :=
  match c with
  | CConvert => (snd (do_convert (fst p)), snd p)
  | CNames f => (snd (do_names (fst p) f), snd p)
  | CWrite fuel w => match do_write fuel (fst p) w (snd p) with (_, x, fs) => (x, fs) end
  end.
Definition calls (p : conv * disk) (l : list cop) : conv * disk := fold_left call l p.

(** ** nappy_api.py: the functions for xarray objects *)
(** The modules of the package nappy/nc_interface, and the classes of the module
    na_to_xarray.py (line 63). *)
Definition nc_modules : list str := map lit ["na_content_collector"; "na_to_nc"; "na_to_xarray"; "nc_to_na"; "xarray_objs_to_na_files"; "xarray_to_na"; "xarray_utils"]%pylit.
Definition na_to_xarray_classes : list str := map lit ["NADictToXarrayObjects"]%pylit.
Definition has_name (s : str) (l : list str) : bool := existsb (str_eqb s) l.
(** nappy_api.py:311-349 [convertXarrayObjectsToNA]; the argument size_limit is
    not passed on.  [modules]: what there is to import. *)
Definition convertXarrayObjects (modules : list str) (fuel : nat) (E : env num) (xr_vars : list xvar) (globals : list (str * gval num)) (ffi : option Z)
    (s : NCWrite.settings (num := num)) (na_file : str) (o : opts num) (no_header : bool) (size_limit : option Z) (fs : disk) : Res (list str) * disk :=
  if has_name (lit "xarray_objs_to_na_file") modules then
    let (r, x) := do_convert (new_objects E xr_vars globals ffi s) in
    match r with
    | Err e => (Err e, fs)
    | Ok _ => match do_write fuel x (mkWargs (Some na_file) o no_header None) fs with (r', _, fs') => (r', fs') end
    end
  else (Err EImportError, fs).
Definition convertXarrayObjectsToNA := convertXarrayObjects nc_modules.
(** nappy_api.py:352-358 [convertXarrayObjectsToCSV]: with commas. *)
Definition convertXarrayObjectsToCSV (fuel : nat) (E : env num) (xr_vars : list xvar) (globals : list (str * gval num)) (ffi : option Z)
    (s : NCWrite.settings (num := num)) (csv_file : str) (o : opts num) (no_header : bool) (size_limit : option Z) (fs : disk) : Res (list str) * disk :=
  convertXarrayObjectsToNA fuel E xr_vars globals ffi s csv_file (mkOpts (lit ",") (o_fmt o) (o_annot o) (o_ann o)) no_header size_limit fs.
(** nappy_api.py:361-393 [writeNADictToNC], up to the converter; what follows it
    is not modelled. *)
Definition writeNADictToNC (classes : list str) (na_dict : na) : Res unit :=
  if has_name (lit "NAToXarray") classes then Err EUnmodelled else Err EAttributeError.
End Converter.
Arguments conv : clear implicits. Arguments wargs : clear implicits. Arguments cop : clear implicits.
