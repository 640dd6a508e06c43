(** Independent specification of the text layer: what the fields of a line are
    and what a trailing annotation is. *)
From Coq Require Import List NArith ZArith Bool.
From Verif Require Import Py.Str.
Import ListNotations.

(** White space only. *)
Definition blank (s : str) : Prop := Forall (fun c => is_space c = true) s.
(** A non-empty run of characters that are not white space. *)
Definition word (w : str) : Prop := w <> [] /\ Forall (fun c => is_space c = false) w.
(** [s] is empty or starts with white space. *)
Definition word_end (s : str) : Prop :=
  match s with [] => True | c :: _ => is_space c = true end.

(** [fields s ws]: [s] consists of the words [ws] in this order, separated by
    white space, possibly with white space around. *)
Inductive fields : str -> list str -> Prop :=
| f_blank s : blank s -> fields s []
| f_word a w s ws :
    blank a -> word w -> word_end s -> fields s ws -> fields (a ++ w ++ s) (w :: ws).

(** [annotated l p g b]: the line [l] is the text [p] followed by the group
    {g} and white space [b]; [p] is not empty and has no line feed, [g] has
    none of the characters open brace, caret, close brace. *)
Definition annotated (l p g b : str) : Prop :=
  l = p ++ [c_lbrace] ++ g ++ [c_rbrace] ++ b
  /\ p <> [] /\ ~ In c_nl p
  /\ ~ In c_lbrace g /\ ~ In c_caret g /\ ~ In c_rbrace g
  /\ blank b.

(** The part of a line that carries values. *)
Definition payload (l p : str) : Prop :=
  (exists g b, annotated l p g b) \/ ((forall p' g b, ~ annotated l p' g b) /\ p = l).
