(** The life of one file object: nappy/na_file/na_file.py [__init__], [write],
    [close], [_parseDictionary], and what reaches the disk.

    Simplifications: the keys of the dictionary are the recognised ones (a key
    such as "file" or "data_written" would overwrite an attribute of the object);
    one process writes the file; the disk never fails. *)
From Coq Require Import List NArith ZArith Bool.
From Verif Require Import Py.Str Py.Res Py.Num Model.Dict Model.TextParser Model.CommonUtils Model.NAWrite.
From Verif Require Model.NAWriteLog.
Import ListNotations.

Inductive mode := MRead | MWrite.

Section Object.
Context {num : Type} `{NumOps num}.

Record obj := mkObj {
  ob_mode : mode;
  ob_cls : cls;
  ob_written : bool;     (* self.data_written; not set, and not used, in mode r *)
  ob_open : bool;        (* self.is_open *)
  ob_attrs : na num;     (* the attributes of the object *)
  ob_dict : na num;      (* self.na_dict *)
  ob_file : str          (* all text in the file or given to file.write *)
}.

(** na_file.py:55-78 [__init__]: opening with mode w empties the file. *)
Definition new_w (c : cls) (d : na num) : obj := mkObj MWrite c false true (fun _ => None) d [].
(** Opening with mode r; [a] are the attributes that readHeader has set. *)
Definition new_r (c : cls) (a : na num) (content : str) : obj := mkObj MRead c false true a (fun _ => None) content.

(** na_file.py:135-142 [_parseDictionary]. *)
Definition parseDictionary (a d : na num) : na num := fun k => match d k with Some v => Some v | None => a k end.
(** The dictionary after the writer has modified list objects that it shares
    with the attributes. *)
Definition shared (d a : na num) : na num := fun k => match d k with Some _ => a k | None => None end.

(** What can be done to the object from outside: write, close, and any change to
    the attributes and the dictionary (setNADict, assignments, readData, ...). *)
Inductive op :=
| OWrite (o : opts num) (no_header : bool)
| OClose
| OEdit (attrs dict : na num).

(** na_file.py:107-115: the checks of [write], in this order. *)
Definition write_check (x : obj) : Res unit :=
  match ob_mode x with
  | MRead => Err (ENappy E_ReadOnly)
  | MWrite => if ob_written x then Err (ENappy E_AlreadyWritten)
              else if ob_open x then Ok tt else Err (ENappy E_Closed)
  end.
(** na_file.py:94-128 [write] and :130-133 [close]. *)
Definition do_op (x : obj) (p : op) : Res unit * obj :=
  match p with
  | OWrite o nh =>
      match write_check x with
      | Err e => (Err e, x)
      | Ok _ =>
          let (r, st) := write_body o (ob_cls x) nh (mkW (ob_file x) [] (parseDictionary (ob_attrs x) (ob_dict x))) in
          (r, mkObj (ob_mode x) (ob_cls x) (is_ok r) (ob_open x) (w_na st) (shared (ob_dict x) (w_na st)) (w_file st))
      end
  | OClose => (Ok tt, mkObj (ob_mode x) (ob_cls x) (ob_written x) false (ob_attrs x) (ob_dict x) (ob_file x))
  | OEdit a d => (Ok tt, mkObj (ob_mode x) (ob_cls x) (ob_written x) (ob_open x) a d (ob_file x))
  end.
(** The object after a sequence of operations, whatever their outcomes. *)
Fixpoint after (x : obj) (l : list op) : obj :=
  match l with [] => x | p :: t => after (snd (do_op x p)) t end.

(** What the operations ask of the operating system: [file.write(s)], and
    [file.flush()] (na_file.py:125; [file.close()] flushes too). *)
Inductive event := Put (s : str) | FlushAll.
Definition op_events (x : obj) (p : op) : list event :=
  match p with
  | OWrite o nh =>
      match write_check x with
      | Err _ => []
      | Ok _ =>
          let (r, st) := NAWriteLog.write_body o (ob_cls x) nh
                           (NAWriteLog.mkL [] [] (parseDictionary (ob_attrs x) (ob_dict x))) in
          map Put (NAWriteLog.l_calls st) ++ (if is_ok r then [FlushAll] else [])
      end
  | OClose => [FlushAll]
  | OEdit _ _ => []
  end.
Fixpoint events (x : obj) (l : list op) : list event :=
  match l with [] => [] | p :: t => op_events x p ++ events (snd (do_op x p)) t end.
End Object.
Arguments obj : clear implicits. Arguments op : clear implicits.

(** The buffer of the file object and the disk.  The buffer may hand any part of
    its content to the disk at any time. *)
Record io := mkIo { io_todo : list event; io_buf : str; io_disk : str }.
Inductive io_step : io -> io -> Prop :=
| IoPut s t b d : io_step (mkIo (Put s :: t) b d) (mkIo t (b ++ s) d)
| IoFlush t b d : io_step (mkIo (FlushAll :: t) b d) (mkIo t [] (d ++ b))
| IoSpill t b1 b2 d : io_step (mkIo t (b1 ++ b2) d) (mkIo t b2 (d ++ b1)).
Inductive io_reach : io -> io -> Prop :=
| IoHere s : io_reach s s
| IoNext s1 s2 s3 : io_reach s1 s2 -> io_step s2 s3 -> io_reach s1 s3.
