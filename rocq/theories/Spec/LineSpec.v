(** Texts with other line ends. *)
From Coq Require Import List NArith.
From Verif Require Import Py.Str.
Import ListNotations.

(** Every newline replaced by [e]. *)
Definition with_ends (e s : str) : str := flat_map (fun c => if (c =? c_nl)%N then e else [c]) s.
(** No part of the line can be taken for an annotation or a quotation mark. *)
Definition plain_line (l : str) : Prop := ~ In c_rbrace l /\ ~ In 1%N l.
