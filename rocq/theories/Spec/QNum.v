(** A third concrete number instance: exact rational numbers, read from decimal
    notation with an optional fraction.  Used for concrete cases of the
    comparison and of the axis arithmetic. *)
From Coq Require Import List NArith ZArith QArith Bool.
From Verif Require Import Py.Str Py.Res Py.Num Model.Compare.
Import ListNotations.

Definition q_parse (s : str) : option Q :=
  match split_chr c_dot (strip s) with
  | [a] => match int_of_str a with Some z => Some (inject_Z z) | None => None end
  | [a; b] =>
      match int_of_str a, uint_of_str false b with
      | Some z, Some d =>
          let f := (Z.of_N (N.of_uint d) # (Pos.pow 10 (Pos.of_nat (length b))))%Q in
          Some (if starts_with [c_minus] a then inject_Z z - f else inject_Z z + f)%Q
      | _, _ => None
      end
  | _ => None
  end.
Global Instance QOps : NumOps Q := {|
  num_str := fun q => dec_of_Z (Qnum q) ++ lit "/" ++ dec_of_Z (Zpos (Qden q));
  num_parse := q_parse;
  num_trunc := fun q => Some (Z.quot (Qnum q) (Zpos (Qden q)));
  num_of_Z := inject_Z
|}.
Definition q_ltb (a b : Q) : bool := negb (Qle_bool b a).
Global Instance QCmp : CmpOps Q := {|
  num_eqb := Qeq_bool; num_ltb := q_ltb; num_div := Qdiv; num_sub := Qminus;
  num_zero := 0%Q; num_one := 1%Q; num_tiny := (1 # 1000000000)%Q; num_thr := (1 # 100)%Q
|}.
