(** Vocabulary for property C121: values of axes that float arithmetic and ten
    digits do not change. *)
From Coq Require Import List ZArith QArith Floats.SpecFloat.
From Verif Require Import Py.Num Py.Arith Model.Dict Spec.Binary64 Spec.Float64 Spec.LinspaceSpec Spec.DecimalSpec.
Import ListNotations.

(** The double [x] is z * 2^e for a whole number [z] below 2^52, and ten digits
    are enough to write it.  (Whole numbers: e = 0; quarters: e = -2.) *)
Definition on_grid (e : Z) (x : f64) : Prop :=
  exists z, (Z.abs z < 2 ^ 52)%Z /\ few_digits 10 (inject_Z z * 2 ^ e) /\ f_val x = fl z e.

(** All numbers of an array but the missing ones. *)
Fixpoint cells (P : f64 -> Prop) (p : pyv f64) : Prop :=
  match p with
  | PNum x => num_isnan x = true \/ P x
  | PList l => (fix all l := match l with [] => True | x :: t => cells P x /\ all t end) l
  | _ => True
  end.
