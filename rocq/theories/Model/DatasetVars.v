(** nappy/nc_interface/xarray_to_na.py:509-535 [XarrayDatasetToNA]: which
    variables of a data set are converted.

    Of xarray: [xr_dset.keys()] and [xr_dset.values()] are the data variables in
    order; [var.coords] of a variable taken from a data set are those coordinates
    of the data set whose dimensions are all dimensions of the variable. *)
From Coq Require Import List NArith Bool Permutation.
From Verif Require Import Py.Str.
Import ListNotations.

(** A variable or coordinate: name and dimensions. *)
Record entry := mkEntry { e_name : str; e_dims : list str }.
Record dset := mkDset { ds_data : list entry; ds_coords : list entry }.
Definition str_in (s : str) (l : list str) : bool := existsb (str_eqb s) l.

(** [var.coords.keys()] *)
Definition coords_of (ds : dset) (v : entry) : list str :=
  map e_name (filter (fun c => forallb (fun d => str_in d (e_dims v)) (e_dims c)) (ds_coords ds)).
(** Lines 521-522: the elements of the set, with repetitions. *)
Definition aux_coords (ds : dset) : list str :=
  flat_map (fun v => filter (fun c => negb (str_in c (e_dims v))) (coords_of ds v)) (ds_data ds).
(** The order in which python goes through a set is not known: any list without
    repetitions that has the same elements. *)
Definition set_order (s order : list str) : Prop := NoDup order /\ forall x, In x order <-> In x s.
(** Lines 515 and 525-527: the names in the list of variables. *)
Definition chosen (ds : dset) (order : list str) : list str :=
  let main_var_keys := map e_name (ds_data ds) in
  main_var_keys ++ filter (fun k => negb (str_in k main_var_keys)) order.
