(** What the getters of an object are expected to return for well-formed data. *)
From Coq Require Import List NArith ZArith Bool.
From Verif Require Import Py.Str Py.Res Py.Num Model.Dict Model.CommonUtils Spec.TextSpec Spec.Records.
Import ListNotations.

Section ObjectSpec.
Context {num : Type} `{NumOps num}.

(** Name, missing value and scale factor of a variable as they are read; the
    scale factor of a character variable is None. *)
Record meta := mkMeta { m_name : str; m_miss : pyv num; m_scal : pyv num }.
Definition var_meta (v : var num) : meta := mkMeta (v_name v) (PNum (val (v_miss v))) (PNum (val (v_scal v))).
Definition cvar_meta (v : cvar) : meta := mkMeta (cv_name v) (PStr (cv_miss v)) PNone.

(** [d] holds well-formed data of the class [c]: FFI, number of independent
    variables, common part, variables, auxiliary variables and the names of the
    independent variables. *)
Inductive well_formed (g : num -> num) (d : na num) :
  cls -> Z -> common -> list meta -> list meta -> list str -> Prop :=
| WF1001 r : ok1001 r -> has d (items1001 r) ->
    well_formed g d C1001 1001 (r1_common r) (map var_meta (r1_vars r)) [] [r1_xname r]
| WF1010 r : ok1010 r -> has d (items1010 r) ->
    well_formed g d C1010 1010 (r2_common r) (map var_meta (r2_vars r)) (map var_meta (r2_aux r)) [r2_xname r]
| WF1020 r : ok1020 r -> has d (items1020 r) ->
    well_formed g d C1020 1020 (r3_common r) (map var_meta (r3_vars r)) (map var_meta (r3_aux r)) [r3_xname r]
| WF2010 r : ok2010 r -> length (r4_nx r) = 1%nat -> has d (items2010 r) ->
    well_formed g d C2010 2010 (r4_common r) (map var_meta (r4_vars r)) (map var_meta (r4_aux r))
      (r4_xname r :: map x_name (r4_axes r))
| WF3010 r : ok2010 r -> length (r4_nx r) = 2%nat -> palindromic_def r -> has d (items2010 r) ->
    well_formed g d C3010 3010 (r4_common r) (map var_meta (r4_vars r)) (map var_meta (r4_aux r))
      (r4_xname r :: map x_name (r4_axes r))
| WF4010 r : ok2010 r -> length (r4_nx r) = 3%nat -> palindromic_def r -> has d (items2010 r) ->
    well_formed g d C4010 4010 (r4_common r) (map var_meta (r4_vars r)) (map var_meta (r4_aux r))
      (r4_xname r :: map x_name (r4_axes r))
| WF2110 r : ok2110 g r -> has d (items2110 r) ->
    well_formed g d C2110 2110 (r5_common r) (map var_meta (r5_vars r)) (map var_meta (r5_aux r))
      [fst (r5_xname r); snd (r5_xname r)]
| WF2160 r : ok2160 g r -> has d (items2160 r) -> attr d kIGN = PNone \/ attr d kIGN = PList [] ->
    well_formed g d C2160 2160 (r6_common r) (map var_meta (r6_vars r))
      (map var_meta (r6_aux r) ++ map cvar_meta (r6_caux r)) [fst (r6_xname r); snd (r6_xname r)]
| WF2310 r : ok2310 g r -> has d (items2310 r) ->
    well_formed g d C2310 2310 (r7_common r) [var_meta (r7_var r)] (map var_meta (r7_aux r))
      [fst (r7_xname r); snd (r7_xname r)].

(** The name without the units and the units, for a name without parentheses
    and for a name that ends with units in parentheses. *)
Definition splits (text : str) (p : str * option str) : Prop :=
  (~ In c_lpar text -> p = (text, None)) /\
  (forall name units, text = name ++ [c_lpar] ++ units ++ [c_rpar] ->
     ~ In c_lpar name -> ~ In c_rpar name -> ~ In c_lpar units -> ~ In c_rpar units -> units <> [] ->
     p = (strip name, Some units)).
End ObjectSpec.
Arguments meta : clear implicits.
