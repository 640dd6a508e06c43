(** [isUniformlySpaced] (nc_interface/xarray_utils.py:93-106) with [np.linspace].
    The conversion (Model/Collector.v) takes this test as the parameter
    [e_uniform]; here is what it computes for an axis that is not a time axis. *)
From Coq Require Import List NArith ZArith Bool.
From Verif Require Import Py.Str Py.Res Py.Num Py.Arith.
Import ListNotations.

(** [x / y]. *)
Class DivOps (num : Type) := { num_over : num -> num -> num }.

Section Linspace.
Context {num : Type} `{NumOps num} `{ArithOps num} `{DivOps num}.

(** [np.linspace(start, stop, n)], as numpy/core/function_base.py of numpy 1.20
    and later does it (numpy is not in /repo): [n - 1] steps of
    [(stop - start) / (n - 1)], the i-th value [i * step + start], the last one
    [stop]; if the step is 0, [i / (n - 1) * (stop - start) + start].
    Simplification: the numbers are of one type, so that nothing is cast. *)
Definition linspace_at (start stop : num) (n i : nat) : num :=
  let delta := num_minus stop start in
  if (n <=? 1)%nat then num_plus (num_times (num_of_Z (Z.of_nat i)) delta) start
  else if (S i =? n)%nat then stop
  else
    let div := num_of_Z (Z.of_nat (n - 1)) in
    let step := num_over delta div in
    if num_same step (num_of_Z 0)
    then num_plus (num_times (num_over (num_of_Z (Z.of_nat i)) div) delta) start
    else num_plus (num_times (num_of_Z (Z.of_nat i)) step) start.
Definition linspace (start stop : num) (n : nat) : list num :=
  map (linspace_at start stop n) (seq 0 n).

(** xarray_utils.py:93-106 [isUniformlySpaced], [arr] the values of a coordinate
    that is not a time.  An empty one has no first value (IndexError). *)
Definition isUniformlySpaced (arr : list num) : Res bool :=
  match arr with
  | [] => Err EIndexError
  | start :: _ =>
      Ok (forallb (fun p => num_same (fst p) (snd p))
            (combine (linspace start (last arr start) (length arr)) arr))
  end.
(** The same as the parameter of the conversion, which looks at the first value
    itself. *)
Definition spaced (arr : list num) : bool :=
  match isUniformlySpaced arr with Ok b => b | Err _ => false end.
End Linspace.
