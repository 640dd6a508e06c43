(** What a round trip through a file means. *)
From Coq Require Import List NArith ZArith Bool.
From Verif Require Import Py.Str Py.Res Py.Num Model.Dict Model.CommonUtils Model.NAWrite Model.NARead
  Spec.Records.
Import ListNotations.

(** Writing [d] with an object of class [c] succeeds, whatever the header
    buffer held before.  The file is the header followed by the data.  Opening
    the file, reading it and asking for the dictionary succeeds with an object
    of the same class, and the dictionary consists of exactly [items], NLHEAD
    (the number of lines of the header) and an empty list of ignored lines. *)
Definition comes_back {num} `{NumOps num} (o : opts num) (c : cls) (d : na num)
    (items : list (key * pyv num)) : Prop :=
  forall h, exists file hdr d2,
    write_body o c false (mkW [] h d) = (Ok tt, mkW file hdr d2) /\
    exists data d', file = hdr ++ data /\ read_file file 0 = Ok (c, d') /\
      is_dict d' (read_items (count_chr c_nl hdr) ++ items).

(** Writing [d], reading the file and writing what was read gives the same
    file. *)
Definition same_again {num} `{NumOps num} (o : opts num) (c : cls) (d : na num) : Prop :=
  forall h h', exists file hdr d2 d' hdr' d2',
    write_body o c false (mkW [] h d) = (Ok tt, mkW file hdr d2) /\
    read_file file 0 = Ok (c, d') /\
    write_body o c false (mkW [] h' d') = (Ok tt, mkW file hdr' d2').

(** [d] is written and read ([d1]), this is written and read again ([d2]), and
    written a third time: the two dictionaries that were read are the same in
    every item, and so are the second and the third file. *)
Definition settled {num} `{NumOps num} (o : opts num) (c : cls) (d : na num) : Prop :=
  forall h h' h'', exists st1 d1 st2 d2 st3,
    write_body o c false (mkW [] h d) = (Ok tt, st1) /\ read_file (w_file st1) 0 = Ok (c, d1) /\
    write_body o c false (mkW [] h' d1) = (Ok tt, st2) /\ read_file (w_file st2) 0 = Ok (c, d2) /\
    write_body o c false (mkW [] h'' d2) = (Ok tt, st3) /\
    (forall k, d2 k = d1 k) /\ w_file st3 = w_file st2.

(** Formatting a value that was read gives the text it was read from. *)
Definition fmt_stable {num} (fmt : num -> str) (g : num -> num) : Prop := forall x, fmt (g x) = fmt x.

(** All header numbers (steps, scale factors, missing values) are floating
    point numbers and comments have no white space at the ends, as in any
    dictionary that was read from a file. *)
Definition is_float {num} (n : number num) : Prop := exists x, n = NF x.
Definition float_vars {num} (vs : list (var num)) : Prop :=
  Forall (fun v => is_float (v_scal v) /\ is_float (v_miss v)) vs.
Definition read_comments (c : common) : Prop := Forall trimmed (c_scom c) /\ Forall trimmed (c_ncom c).
Definition floats1001 {num} (r : r1001 num) : Prop :=
  read_comments (r1_common r) /\ is_float (r1_dx r) /\ float_vars (r1_vars r).
Definition floats1010 {num} (r : r1010 num) : Prop :=
  read_comments (r2_common r) /\ is_float (r2_dx r) /\ float_vars (r2_vars r) /\ float_vars (r2_aux r).
Definition floats1020 {num} (r : r1020 num) : Prop :=
  read_comments (r3_common r) /\ is_float (r3_dx r) /\ float_vars (r3_vars r) /\ float_vars (r3_aux r).
Definition floats2010 {num} (r : r2010 num) : Prop :=
  read_comments (r4_common r) /\ is_float (r4_dx r) /\ Forall (fun a => is_float (x_dx a)) (r4_axes r) /\
  float_vars (r4_vars r) /\ float_vars (r4_aux r).
Definition floats2110 {num} (r : r2110 num) : Prop :=
  read_comments (r5_common r) /\ is_float (fst (r5_dx r)) /\ is_float (snd (r5_dx r)) /\ float_vars (r5_vars r) /\ float_vars (r5_aux r).
Definition floats2160 {num} (r : r2160 num) : Prop :=
  read_comments (r6_common r) /\ is_float (r6_dx r) /\ is_float (r6_lenx r) /\ float_vars (r6_vars r) /\ float_vars (r6_aux r).
Definition floats2310 {num} (r : r2310 num) : Prop :=
  read_comments (r7_common r) /\ is_float (hd (NI 0) (r7_dx r)) /\ float_vars [r7_var r] /\ float_vars (r7_aux r).
