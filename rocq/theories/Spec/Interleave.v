(** FFI 2310 with any number of primary variables: what is read back.

    The writer puts the values of a mark down point by point (all variables at the
    first point, then all variables at the second point); the reader takes them
    variable by variable. *)
From Coq Require Import List NArith ZArith Bool.
From Verif Require Import Py.Str Py.Res Py.Num Model.Dict Spec.Records.
Import ListNotations.

Section Interleave.
Context {num : Type} `{NumOps num}.
Local Notation number := (number num).
Local Notation var := (var num).

Record r2310n := mk2310n {
  q_common : common; q_vars : list var; q_aux : list var;
  q_dx : list number;                 (* DX: the first item is written *)
  q_xname : str * str;
  q_x : list number; q_nx : list nat; q_a : list (list number);
  q_v : list (list (list number)) }.   (* variable, mark, point *)
Definition items2310n (r : r2310n) : list (entry (num:=num)) :=
  common_items 2310 2 (q_common r) ++ var_items (q_vars r) ++ aux_items (q_aux r) ++
  [(kDX, nums_pv (q_dx r)); (kXNAME, strs_pv [fst (q_xname r); snd (q_xname r)]);
   (kX, PList (map (fun p => PList [pv (fst p); nums_pv [snd p]]) (combine (q_x r) (nth 1 (q_a r) []))));
   (kNX, PList (map (fun n => PInt (Z.of_nat n)) (q_nx r)));
   (kA, PList (map nums_pv (q_a r))); (kV, PList (map (fun v => PList (map nums_pv v)) (q_v r)))].
(** As [ok2310], with a list of variables. *)
Definition ok2310n (g : num -> num) (r : r2310n) : Prop :=
  common_ok (q_common r) /\ vars_ok (q_vars r) /\ auxs_ok (q_aux r) /\
  (3 <= length (q_aux r))%nat /\
  name_ok (fst (q_xname r)) /\ name_ok (snd (q_xname r)) /\
  length (q_a r) = length (q_aux r) /\ length (q_nx r) = length (q_x r) /\
  Forall (fun a => length a = length (q_x r)) (q_a r) /\
  Forall (fun n => 0 < n)%nat (q_nx r) /\
  Forall2 (fun n a => num_trunc (g (val a)) = Some (Z.of_nat n)) (q_nx r) (nth 0 (q_a r) []) /\
  length (q_v r) = length (q_vars r) /\
  Forall (Forall2 (fun n v => length v = n) (q_nx r)) (q_v r) /\
  q_dx r <> [] /\
  Forall2 (fun a z => exists k, z = NI k /\ num_trunc (g (val a)) = Some k) (nth 2 (q_a r) []) (tl (q_dx r)).
(** The value of variable [n] at mark [m] and point [i]. *)
Definition cell (V : list (list (list number))) (n m i : nat) : number := nth i (nth m (nth n V []) []) (NI 0).
(** Variable [n], mark [m], point [i] holds the value that was number
    [n * NX[m] + i] of the mark: the one of variable [k mod NV] at point
    [k / NV]. *)
Definition mixed (nxs : list nat) (V : list (list (list number))) : list (list (list number)) :=
  map (fun n => map (fun m =>
         map (fun i => let k := (n * nth m nxs 0 + i)%nat in cell V (k mod length V) m (k / length V))
             (seq 0 (nth m nxs 0)))
         (seq 0 (length nxs)))
      (seq 0 (length V)).
Definition read2310n_as (g : num -> num) (r : r2310n) : r2310n :=
  mk2310n (norm_common (q_common r)) (map norm_var (q_vars r)) (map norm_var (q_aux r))
    (match q_dx r with [] => [] | d :: t => head_num d :: t end) (q_xname r)
    (map (data_num g) (q_x r)) (q_nx r) (map (map (data_num g)) (q_a r))
    (mixed (q_nx r) (map (map (map (data_num g))) (q_v r))).
End Interleave.
Arguments r2310n : clear implicits.
