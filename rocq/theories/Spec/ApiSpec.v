(** Vocabulary for the conversions of nappy_api.py (properties C69 to C75). *)
From Coq Require Import List NArith ZArith Bool.
From Verif Require Import Py.Str Py.Res Py.Num Model.Dict Model.Xarray Model.NCWrite Model.Api Spec.RowSpec.
Import ListNotations.

(** Equal up to the case of ASCII letters, and with blanks for underscores. *)
Definition alike_chr (a b : chr) : Prop :=
  lower_chr a = lower_chr b \/ (a = c_sp \/ a = c_us) /\ (b = c_sp \/ b = c_us).
Definition alike (a b : str) : Prop := Forall2 alike_chr a b.

(** [l'] is [l] without the elements that do not have the property. *)
Inductive only {A} (P : A -> Prop) : list A -> list A -> Prop :=
| only_nil : only P [] []
| only_keep x l' l : P x -> only P l' l -> only P (x :: l') (x :: l)
| only_drop x l' l : ~ P x -> only P l' l -> only P l' (x :: l).

Section Api.
Context {num : Type}.
(** The argument [var_ids] allows the name. *)
Definition asked (i : ids) (name : str) : Prop :=
  match i with IAll => True | IOne s => name = s | IList l => In name l end.
(** Some variable of the file has the name as its attribute [bounds]. *)
Definition is_bounds (ds : dataset num) (name : str) : Prop :=
  exists w g, In w (ds_vars ds) /\ n_attr (v_info w) (lit "bounds") = Some g /\ g_val g = PStr name.
(** What [convertNCToNA] is to convert. *)
Definition to_convert (ds : dataset num) (i : ids) (exclude : list str) (v : xvar num) : Prop :=
  asked i (v_name v) /\ (forall e, In e exclude -> ~ alike e (v_name v)) /\ ~ is_bounds ds (v_name v).
(** The same name, attributes, axes and values. *)
Definition same_variable (v w : xvar num) : Prop :=
  v_name v = v_name w /\ n_attrs (v_info v) = n_attrs (v_info w) /\ v_axes v = v_axes w /\ v_data v = v_data w.
End Api.

(** The same files, each of the same rows, with the delimiters [d] and [d']. *)
Definition same_rows (d d' : str) (a b : str * str) : Prop :=
  fst a = fst b /\ exists rows, snd a = rows_text d rows /\ snd b = rows_text d' rows.
