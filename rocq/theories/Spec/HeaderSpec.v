(** Vocabulary for global attributes and the names in the header (properties C80
    and C81). *)
From Coq Require Import List NArith.
From Verif Require Import Py.Str Spec.TextSpec.
Import ListNotations.

(** The attribute institution that NASA Ames files get in NetCDF, from ONAME and
    ORG. *)
Definition na_institution (o r : str) : str :=
  o ++ lit " (ONAME from NASA Ames file); " ++ r ++ lit " (ORG from NASA Ames file).".
(** [p] is somewhere in [s]. *)
Definition occurs (p s : str) : Prop := exists a b, s = a ++ p ++ b.
(** Texts that can be told apart in that attribute: single lines; the second one
    does not start with white space and has no mark of the first. *)
Definition separable (o r : str) : Prop :=
  ~ In c_nl o /\ ~ In c_nl r /\ (forall c t, r = c :: t -> is_space c = false) /\ ~ occurs (lit "(ONAME from NASA Ames file);") r.
