(** What a NetCDF file written from a NASA Ames file has in it (C89 to C91). *)
From Coq Require Import List NArith ZArith Bool.
From Verif Require Import Py.Str Py.Num Model.Dict Model.Xarray Model.Api Spec.CommandLineSpec.
Import ListNotations.

Section Spec.
Context {num : Type}.
(** The same value, except that an empty text may have changed (see C74). *)
Definition same_value (x y : gval num) : Prop := g_val x <> PStr [] -> g_val y = g_val x.
Definition same_attrs (l l' : list (str * gval num)) : Prop :=
  Forall2 (fun p q => fst q = fst p /\ same_value (snd p) (snd q)) l l'.
(** [w] is [v] with these attributes. *)
Definition kept (v w : xvar num) : Prop :=
  v_name w = v_name v /\ v_axes w = v_axes v /\ v_data w = v_data v /\ v_miss w = v_miss v /\
  same_attrs (n_attrs (v_info v)) (n_attrs (v_info w)).
(** The last of the values with a name. *)
Definition last_with {A} (name : A -> str) (n : str) (l : list A) : option A :=
  last_of (fun v => if str_eqb (name v) n then Some v else None) l.
(** The data set has, once each, the variables and the attributes of the two
    lists, of several with the same name the last one, and nothing else. *)
Definition holds (ds : dataset num) (vars : list (xvar num)) (attrs : list (str * gval num)) : Prop :=
  NoDup (map v_name (ds_vars ds)) /\
  (forall n, match last_with v_name n vars with
             | Some v => exists w, In w (ds_vars ds) /\ kept v w
             | None => ~ In n (map v_name (ds_vars ds))
             end) /\
  NoDup (map fst (ds_attrs ds)) /\
  forall k, match last_with fst k attrs with
            | Some (_, x) => exists y, In (k, y) (ds_attrs ds) /\ same_value x y
            | None => ~ In k (map fst (ds_attrs ds))
            end.
End Spec.
