(** The loop of text_parser.py:83-86 on an open file, one iteration at a time:
<<
    while len(rtitems) < nitems:
        items = rightStripCurlyBraces(object.readline()).strip().split()
        rtitems = rtitems + items[:nitems]
>>
    Used to justify the value [EHang] of the big-step model. *)
From Coq Require Import List NArith ZArith Bool.
From Verif Require Import Py.Str Model.TextParser.
Import ListNotations.

(** Items collected so far, and the lines of the file not yet read. *)
Record loop_state := mkL { l_items : list str; l_file : list str }.

(** [readline()] returns the empty string at the end of the file, each time it
    is called. *)
Definition file_readline (ls : list str) : str * list str :=
  match ls with [] => ([], []) | l :: r => (l, r) end.

(** The loop condition. *)
Definition running (nitems : Z) (s : loop_state) : bool :=
  (Z.of_nat (length (l_items s)) <? nitems)%Z.

(** One execution of the loop body. *)
Definition loop_body (nitems : Z) (s : loop_state) : loop_state :=
  let (line, rest) := file_readline (l_file s) in
  let items := split_ws (strip (right_strip_braces line)) in
  mkL (l_items s ++ slice_to items nitems) rest.

(** The state after at most [k] iterations (fewer when the loop has ended). *)
Fixpoint after (k : nat) (nitems : Z) (s : loop_state) : loop_state :=
  match k with
  | O => s
  | S k' => if running nitems s then after k' nitems (loop_body nitems s) else s
  end.
