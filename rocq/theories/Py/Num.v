(** Numbers: decimal integers (concrete) and the interface for floating point
    numbers (abstract). *)
From Coq Require Import List NArith ZArith Bool Decimal DecimalPos DecimalN DecimalZ.
From Verif Require Import Py.Str Py.Res.
Import ListNotations.
Local Open Scope N_scope.

(** Decimal digits. *)
Fixpoint str_of_uint (d : Decimal.uint) : str :=
  match d with
  | Decimal.Nil => []
  | Decimal.D0 d => 48 :: str_of_uint d
  | Decimal.D1 d => 49 :: str_of_uint d
  | Decimal.D2 d => 50 :: str_of_uint d
  | Decimal.D3 d => 51 :: str_of_uint d
  | Decimal.D4 d => 52 :: str_of_uint d
  | Decimal.D5 d => 53 :: str_of_uint d
  | Decimal.D6 d => 54 :: str_of_uint d
  | Decimal.D7 d => 55 :: str_of_uint d
  | Decimal.D8 d => 56 :: str_of_uint d
  | Decimal.D9 d => 57 :: str_of_uint d
  end.

Definition cons_digit (c : chr) (d : Decimal.uint) : option Decimal.uint :=
  match c with
  | 48 => Some (Decimal.D0 d)
  | 49 => Some (Decimal.D1 d)
  | 50 => Some (Decimal.D2 d)
  | 51 => Some (Decimal.D3 d)
  | 52 => Some (Decimal.D4 d)
  | 53 => Some (Decimal.D5 d)
  | 54 => Some (Decimal.D6 d)
  | 55 => Some (Decimal.D7 d)
  | 56 => Some (Decimal.D8 d)
  | 57 => Some (Decimal.D9 d)
  | _ => None
  end.

Definition is_digit (c : chr) : bool := (48 <=? c) && (c <=? 57).

(** Digits with single underscores between digits, as accepted by [int()].
    [after_digit] says that the previous character was a digit.
    Simplification: only ASCII digits (Python also accepts other Unicode
    decimal digits). *)
Fixpoint uint_of_str (after_digit : bool) (s : str) : option Decimal.uint :=
  match s with
  | [] => if after_digit then Some Decimal.Nil else None
  | c :: t =>
      if (c =? c_us) && after_digit then uint_of_str false t
      else match uint_of_str true t with
           | Some d => cons_digit c d
           | None => None
           end
  end.

(** ["%d" % z]. *)
Definition dec_of_N (n : N) : str := str_of_uint (N.to_uint n).
Definition dec_of_Z (z : Z) : str :=
  match z with
  | Z0 => dec_of_N 0
  | Zpos p => dec_of_N (Npos p)
  | Zneg p => c_minus :: dec_of_N (Npos p)
  end.
Definition dec_of_nat (n : nat) : str := dec_of_N (N.of_nat n).

(** [int(s)]; [None] is ValueError. *)
Definition int_of_str (s : str) : option Z :=
  match strip s with
  | [] => None
  | c :: t =>
      if c =? c_minus then option_map (fun d => Z.opp (Z.of_N (N.of_uint d))) (uint_of_str false t)
      else if c =? c_plus then option_map (fun d => Z.of_N (N.of_uint d)) (uint_of_str false t)
      else option_map (fun d => Z.of_N (N.of_uint d)) (uint_of_str false (c :: t))
  end.

(** Floating point numbers.  [num] is the type of Python numbers found in the
    data; the record holds the operations the code applies to them.  The laws
    a theorem needs are premises of that theorem. *)
Class NumOps (num : Type) := {
  num_str   : num -> str;          (* "%s" % x *)
  num_parse : str -> option num;   (* float(s); None is ValueError *)
  num_trunc : num -> option Z;     (* int(x); None for infinities and nan *)
  num_of_Z  : Z -> num             (* an int used where a number is expected *)
}.
