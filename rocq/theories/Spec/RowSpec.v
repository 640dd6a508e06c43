(** A text file as rows of items (properties C67 and C68). *)
From Coq Require Import List NArith.
From Verif Require Import Py.Str Model.CommonUtils.
Import ListNotations.

(** One line per row, the delimiter [d] between the items. *)
Definition rows_text (d : str) (rows : list (list str)) : str :=
  concat (map (fun items => join d items ++ nl) rows).
(** Delimiters made of spaces and commas, like the default one (four spaces)
    and the one of CSV files. *)
Definition blank_or_comma (d : str) : Prop := forall c, In c d -> c = c_sp \/ c = c_comma.
(** Printed numbers do not end with white space or a comma. *)
Definition solid (s : str) : Prop := exists t c, s = t ++ [c] /\ is_space c = false /\ c <> c_comma.
Definition solid_numbers {num} (o : opts num) : Prop := forall x, solid (o_fmt o x).
(** The same options with another delimiter. *)
Definition with_delim {num} (o : opts num) (d : str) : opts num := mkOpts d (o_fmt o) (o_annot o) (o_ann o).
