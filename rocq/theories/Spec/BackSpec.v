(** Vocabulary for variables that come back from a NASA Ames file as xarray
    variables (properties C92 and C93). *)
From Coq Require Import List NArith ZArith Bool.
From Verif Require Import Py.Str Py.Res Py.Num Model.Dict Model.Xarray Spec.ToXarraySpec.
Import ListNotations.

Section Spec.
Context {num : Type}.
Local Notation named := (named num).

(** The name of a variable: the first of three attributes, else its own name. *)
Definition called (i : named) (n : str) : Prop :=
  let long := n_attr i (lit "long_name") in
  let standard := n_attr i (lit "standard_name") in
  let title := n_attr i (lit "title") in
  long = Some (gstr n) \/
  long = None /\ (standard = Some (gstr n) \/ standard = None /\ (title = Some (gstr n) \/ title = None /\ n_name i = n)).
(** The units: the attribute, or the ones of the file it was read from. *)
Definition measured_in (i : named) (u : str) : Prop :=
  u <> [] /\ (n_attr i (lit "units") = Some (gstr u) \/
              (n_attr i (lit "units") = None \/ n_attr i (lit "units") = Some (gstr [])) /\ n_enc_units i = u).
(** A text without parentheses and line breaks. *)
Definition no_parentheses (s : str) : Prop := ~ In c_lpar s /\ ~ In c_rpar s /\ ~ In c_nl s.
(** A short name without capitals or forbidden characters. *)
Definition identifier (s : str) : Prop :=
  s <> [] /\ (length s < 64)%nat /\ lower s = s /\ forall c, In c s -> ~ forbidden c.
End Spec.
