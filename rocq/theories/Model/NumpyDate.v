(** nappy/nc_interface/xarray_to_na.py:300: the comparison of a date that the user
    gives with one that is a numpy array.

    xarray reads an attribute of several numbers as a numpy array.
    [first_valid_date_of_data] becomes the item DATE as it is
    (na_content_collector.py:601-602), and stays in the dictionary when the first
    axis is not a time (lines 786-792).  [new_item != this_na_dict[key]] is then an
    array, and its truth value raises ValueError; so does the comparison itself
    when the lengths do not fit.

    Simplifications: an array has at least two elements (netCDF gives a number for
    one); the comparison of lengths that do not fit raises an exception as it does
    since numpy 1.25. *)
From Coq Require Import List NArith ZArith Bool.
From Verif Require Import Py.Str Py.Res Py.Num Py.Arith Model.Dict Model.CommonUtils Model.NAWrite Model.Utils Model.NCWrite Model.Xarray Model.Collector Model.Api.
Import ListNotations.

Section NumpyDate.
Context {num : Type} `{NumOps num} `{ArithOps num}.
Local Notation na := (na num).
Local Notation gval := (gval num).

(** na_content_collector.py:601-602 and 767-792: the item DATE of a dictionary is
    the array of the attribute. *)
Definition numpy_date (globals : list (str * gval)) (c : collected num) : bool :=
  existsb (fun p => str_eqb (fst p) (lit "first_valid_date_of_data") && g_np (snd p)) globals &&
  match c_main c with
  | v :: _ => match v_axes v with ax :: _ => match ax_time ax with None => true | Some _ => false end | [] => false end
  | [] => false
  end.
(** The dictionaries of [self.na_dict_list] after [convert]; the second component:
    DATE is an array. *)
Definition dated (globals : list (str * gval)) (r : option (list (collected num))) : list (na * bool) :=
  match r with
  | None => []
  | Some l => flat_map (fun c => match c_na c with Some d => [(d, numpy_date globals c)] | None => [] end) l
  end.

(** xarray_to_na.py:273-305: one item of [overriders].  The new item is there
    before it is compared. *)
Definition override_np (r : rule) (p : key * pyv num) (s : na * bool) : Res (na * bool) :=
  (do d' <- override r (fst s) p;
   if key_beq (fst p) kDATE then if snd s then Err EValueError else Ok (d', false)
   else Ok (d', snd s))%res.
(** xarray_to_na.py:273-309. *)
Definition prepare_np (s : NCWrite.settings (num := num)) (x : na * bool) : Res na :=
  (do y <- forR (st_overriders s) (override_np (st_rule s)) x;
   if st_headers s then updateWithColumnHeaders (fst y) else Ok (fst y))%res.
(** xarray_to_na.py:262-347: the loop. *)
Fixpoint write_all_np (fuel : nat) (s : NCWrite.settings) (o : opts num) (no_header : bool) (size_limit : option Z)
    (l : list (str * (na * bool))) (fs : disk) : Res (list str * list na) * disk :=
  match l with
  | [] => (Ok ([], []), fs)
  | (name, x) :: rest =>
      match prepare_np s x with
      | Err e => (Err e, fs)
      | Ok d =>
          match write_one fuel o no_header size_limit name d fs with
          | (Err e, fs') => (Err e, fs')
          | (Ok names, fs') =>
              match write_all_np fuel s o no_header size_limit rest fs' with
              | (Err e, fs'') => (Err e, fs'')
              | (Ok (names', ds), fs'') => (Ok (names ++ names', d :: ds), fs'')
              end
          end
      end
  end.
(** nappy_api.py:239-295 [convertNCToNA]. *)
Definition convertNCToNA_np (fuel : nat) (a : nc_args num) (nc_file : str) (ds : dataset num) (na_file : option str)
    (only_return_file_names : bool) (delimiter : str) (fs : disk) : Res (list str) * disk :=
  let na_file := match na_file with Some f => f | None => getFileNameWithNewExtension nc_file (lit "na") end in
  match bindR (readXarrayFile ds (n_var_ids a) (n_exclude a) true) (convert (n_env a) (n_ffi a) (ds_attrs ds)) with
  | Err e => (Err e, fs)
  | Ok r =>
      let dicts := dated (ds_attrs ds) r in
      let names := constructNAFileNames na_file (length dicts) in
      if only_return_file_names then (Ok names, fs)
      else
        match write_all_np fuel (n_settings a) (mkOpts delimiter (n_fmt a) (n_annotation a) (n_ann a)) (n_no_header a)
                (n_size_limit a) (combine names dicts) fs with
        | (Ok (names, _), fs') => (Ok names, fs')
        | (Err e, fs') => (Err e, fs')
        end
  end.
End NumpyDate.
