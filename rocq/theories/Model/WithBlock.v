(** nappy/na_file/na_file.py:80-84: file objects in a with statement.

    Simplification: what a block does apart from operations on the object is left
    out, except that it may raise an exception. *)
From Coq Require Import List NArith ZArith Bool.
From Verif Require Import Py.Str Py.Res Py.Num Model.Dict Model.NAWrite Model.Lifecycle.
Import ListNotations.

Section With.
Context {num : Type} `{NumOps num}.

(** One statement of the block: an operation on the object, in a try statement
    that catches everything or not, or any statement that raises. *)
Inductive stmt := SDo (p : op num) (caught : bool) | SRaise (e : exn).
(** The block up to its end or to the first exception that is not caught. *)
Fixpoint run_block (x : obj num) (l : list stmt) : Res unit * obj num :=
  match l with
  | [] => (Ok tt, x)
  | SRaise e :: _ => (Err e, x)
  | SDo p caught :: t =>
      match do_op x p with
      | (Ok _, x') => run_block x' t
      | (Err e, x') => if caught then run_block x' t else (Err e, x')
      end
  end.
(** na_file.py:80-81 [__enter__]: the object itself. *)
Definition enter (x : obj num) : obj num := x.
(** na_file.py:83-84 [__exit__]: closes, and returns None, with which Python raises
    the exception of the block again. *)
Definition exit_block (r : Res unit) (x : obj num) : Res unit * obj num :=
  match do_op x OClose with
  | (Ok _, x') => (r, x')
  | (Err e, x') => (Err e, x')
  end.
(** [with x as f: block] *)
Definition with_block (x : obj num) (l : list stmt) : Res unit * obj num :=
  let (r, x') := run_block (enter x) l in exit_block r x'.

(** What the statement asks of the operating system. *)
Fixpoint block_events (x : obj num) (l : list stmt) : list event :=
  match l with
  | [] => []
  | SRaise _ :: _ => []
  | SDo p caught :: t =>
      op_events x p ++
      match do_op x p with
      | (Ok _, x') => block_events x' t
      | (Err _, x') => if caught then block_events x' t else []
      end
  end.
Definition with_events (x : obj num) (l : list stmt) : list event :=
  block_events (enter x) l ++ op_events (snd (run_block (enter x) l)) OClose.
End With.
Arguments stmt : clear implicits.
