(** Vocabulary for the comparison of files (properties C45, C68): letters. *)
From Coq Require Import List.
From Verif Require Import Py.Str.

(** The letters, and a text with a letter in it. *)
Definition letters : str := lit "ABCDEFGHIJKLMNOPQRSTUVWXYZabcdefghijklmnopqrstuvwxyz".
Definition with_letter (s : str) : Prop := exists c, In c s /\ In c letters.
