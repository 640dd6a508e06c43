(** Vocabulary for the conversion of a NASA Ames file to xarray objects. *)
From Coq Require Import List NArith ZArith Bool.
From Verif Require Import Py.Str Py.Res Py.Num Py.Arith Model.Dict Model.Xarray Spec.TextSpec.
Import ListNotations.

(** [v[p0][p1]...]: an element of a nested list. *)
Fixpoint at_path {num} (p : list nat) (v : pyv num) : option (pyv num) :=
  match p, v with
  | [], _ => Some v
  | i :: q, PList l => match nth_error l i with Some x => at_path q x | None => None end
  | _, _ => None
  end.

(** A number of the header, as a floating point number. *)
Definition number_is {num} `{NumOps num} (v : pyv num) (x : num) : Prop :=
  v = PNum x \/ exists z, v = PInt z /\ x = num_of_Z z.

(** The global attributes that the conversion sets itself. *)
Definition mapped_names : list str := map lit
  ["no_of_nasa_ames_header_lines"; "file_format_index"; "institution"; "source"; "title"; "file_number_in_set";
   "total_files_in_set"; "history"; "first_valid_date_of_data"; "comment"]%pylit.

(** White space and the signs that may not be part of a NetCDF name. *)
Definition forbidden (c : chr) : Prop := is_space c = true \/ In c (lit "/[()]=+-?#~@&$%!*{}^").
