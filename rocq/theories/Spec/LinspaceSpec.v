(** Vocabulary for evenly spaced axes (property C110). *)
From Coq Require Import List ZArith QArith Floats.SpecFloat.
From Verif Require Import Spec.Binary64.
Import ListNotations.

(** The floating point number z * 2^e. *)
Definition fl (z e : Z) : b64 := binary_normalize b_prec b_emax z e false.
(** [n] values from [z0] in steps of [s]. *)
Definition evenly (z0 s : Z) (n : nat) : list Z := map (fun i => z0 + Z.of_nat i * s)%Z (seq 0 n).
(** One difference throughout, for rational numbers. *)
Definition even_Q (l : list Q) : Prop :=
  exists first step : Q, forall i x, nth_error l i = Some x -> (x == first + inject_Z (Z.of_nat i) * step)%Q.
