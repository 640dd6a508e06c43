(** Lines in front of the header ([ignored_header_lines]) that are written
    and read again. *)
From Coq Require Import List NArith ZArith Bool.
From Verif Require Import Py.Str Py.Res Py.Num Model.Dict Model.CommonUtils Model.NAWrite Model.NARead Spec.Records.
Import ListNotations.

Section IgnoredSpec.
Context {num : Type} `{NumOps num}.
(** The dictionary [d] holds the lines [texts]; they are written in front of a
    header and data as without them.  Reading the file with as many lines ignored
    gives a dictionary of exactly [items], the lines, and NLHEAD, which is the
    number of lines of the header and the lines in front. *)
Definition comes_back_behind (o : opts num) (c : cls) (d : na num) (texts : list str) (items : list (key * pyv num)) : Prop :=
  forall h, exists file hdr d2,
    write_body o c false (mkW [] h d) = (Ok tt, mkW (unlines texts ++ file) hdr d2) /\
    exists data d', file = hdr ++ data /\ read_file (unlines texts ++ file) (Z.of_nat (length texts)) = Ok (c, d') /\
      is_dict d' ([(kNLHEAD, PInt (Z.of_nat (count_chr c_nl hdr + length texts))); (kIGN, strs_pv texts)] ++ items).
(** As [same_again] and [settled], for files that are read with [n] lines
    ignored. *)
Definition same_behind (o : opts num) (n : nat) (c : cls) (d : na num) : Prop :=
  forall h h', exists file hdr d2 d' hdr' d2',
    write_body o c false (mkW [] h d) = (Ok tt, mkW file hdr d2) /\
    read_file file (Z.of_nat n) = Ok (c, d') /\
    write_body o c false (mkW [] h' d') = (Ok tt, mkW file hdr' d2').
Definition settled_behind (o : opts num) (n : nat) (c : cls) (d : na num) : Prop :=
  forall h h' h'', exists st1 d1 st2 d2 st3,
    write_body o c false (mkW [] h d) = (Ok tt, st1) /\ read_file (w_file st1) (Z.of_nat n) = Ok (c, d1) /\
    write_body o c false (mkW [] h' d1) = (Ok tt, st2) /\ read_file (w_file st2) (Z.of_nat n) = Ok (c, d2) /\
    write_body o c false (mkW [] h'' d2) = (Ok tt, st3) /\
    (forall k, d2 k = d1 k) /\ w_file st3 = w_file st2.
End IgnoredSpec.
