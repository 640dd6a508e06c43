(** Exceptions as values. *)
From Coq Require Import List ZArith.
From Verif Require Import Py.Str.
Import ListNotations.

(** The explicit [raise Exception(...)] statements of nappy. *)
Inductive nappy_error :=
| E_IncorrectItems      (* text_parser.py:44  wrong number of items in a line *)
| E_CouldNotSplit       (* text_parser.py:94  too many items in a line *)
| E_EmptyLine           (* na_file.py:177  blank line in data section *)
| E_ReadOnly            (* na_file.py:109  write on object opened for reading *)
| E_AlreadyWritten      (* na_file.py:112  second write *)
| E_Closed              (* na_file.py:115  write after close *)
| E_BadMode             (* nappy_api.py  unknown mode *)
| E_TooManyIV           (* common_utils.py:chooseFFI  NIV > 4 *)
| E_NoFFI               (* common_utils.py:chooseFFI  NIV < 1 *)
| E_OddItems            (* common_utils.py  comma separated string with odd number of items *)
| E_RequestedFFI        (* na_content_collector.py  requested FFI not possible *)
| E_BadUnits
| E_NoVariables
| E_Other.

Inductive exn :=
| ETypeError | EValueError | EIndexError | EKeyError | EAttributeError
| EImportError | EUnboundLocal | EZeroDivision | EOverflow | ENameError
| EGetopt                (* getopt.GetoptError *)
| ENappy (e : nappy_error)
| EUnmodelled            (* a Python behaviour outside the model *)
| EHang.                 (* the program loops for ever *)

Inductive Res (A : Type) := Ok (a : A) | Err (e : exn).
Arguments Ok {A}. Arguments Err {A}.

Definition bindR {A B} (m : Res A) (f : A -> Res B) : Res B :=
  match m with Ok a => f a | Err e => Err e end.
Definition is_ok {A} (m : Res A) : bool := match m with Ok _ => true | Err _ => false end.

Declare Scope res_scope.
Delimit Scope res_scope with res.
Notation "'do' x <- m ; k" := (bindR m (fun x => k))
  (at level 200, x pattern, m at level 100, k at level 200, right associativity) : res_scope.

Definition of_opt {A} (e : exn) (o : option A) : Res A :=
  match o with Some a => Ok a | None => Err e end.

(** [l[i]] for a natural index. *)
Definition nth_res {A} (l : list A) (i : nat) : Res A := of_opt EIndexError (nth_error l i).

(** [map] that stops at the first exception. *)
Fixpoint mapR {A B} (f : A -> Res B) (l : list A) : Res (list B) :=
  match l with
  | [] => Ok []
  | x :: t => bindR (f x) (fun y => bindR (mapR f t) (fun ys => Ok (y :: ys)))
  end.
