(** Vocabulary for annotated files (property C21). *)
From Coq Require Import List NArith ZArith Bool.
From Verif Require Import Py.Str Py.Res Py.Num Model.Dict Model.CommonUtils.
Import ListNotations.

(** The same options with annotation switched off and on. *)
Definition plain {num} (o : opts num) : opts num := mkOpts (o_delim o) (o_fmt o) false (o_ann o).
Definition annotated {num} (o : opts num) : opts num := mkOpts (o_delim o) (o_fmt o) true (o_ann o).

(** The sections of the default annotation file, config/annotations.ini. *)
Definition ann_items : list str := map lit
  ["NLHEAD_FFI"; "ONAME"; "ORG"; "SNAME"; "MNAME"; "IVOL_NVOL"; "DATE_RDATE"; "DX"; "NVPM"; "NX";
   "NXDEF"; "X"; "LENX"; "LENA"; "XNAME"; "NV"; "VSCAL"; "VMISS"; "VNAME"; "NAUXV"; "NAUXC";
   "ASCAL"; "AMISS"; "ANAME"; "NSCOML"; "SCOM"; "NNCOML"; "NCOM"; "Data"]%pylit.
Definition ann_complete {num} (o : opts num) : Prop :=
  forall i, In i ann_items -> exists a, o_ann o i = Some a.

(** No line feed in the delimiter and the annotation texts. *)
Definition ann_one_line {num} (o : opts num) : Prop :=
  ~ In c_nl (o_delim o) /\ forall i a, o_ann o i = Some a -> ~ In c_nl a.

(** An annotation: the text of an item, or this text and a running number. *)
Definition ann_text {num} (o : opts num) (a : str) : Prop :=
  exists i t, In i ann_items /\ o_ann o i = Some t /\
    (a = t \/ exists n, a = t ++ lit " " ++ dec_of_nat n).
(** A line and its annotated form: an annotation, the delimiter, the line. *)
Definition ann_line {num} (o : opts num) (l l' : str) : Prop :=
  exists a, ann_text o a /\ l' = a ++ o_delim o ++ l.

(** [q] is [p] with pieces of annotation inserted. *)
Inductive with_annotations {num} (o : opts num) : str -> str -> Prop :=
| wa_nil : with_annotations o [] []
| wa_text s p q : with_annotations o p q -> with_annotations o (s ++ p) (s ++ q)
| wa_ann a p q : ann_text o a -> with_annotations o p q -> with_annotations o p ((a ++ o_delim o) ++ q).

(** None of the characters at which [str.splitlines] breaks a text. *)
Definition unbroken (s : str) : Prop := forall c, In c s -> is_linebreak c = false.
Inductive unbroken_val {num} : pyv num -> Prop :=
| ub_none : unbroken_val PNone
| ub_int z : unbroken_val (PInt z)
| ub_num x : unbroken_val (PNum x)
| ub_str s : unbroken s -> unbroken_val (PStr s)
| ub_list l : Forall unbroken_val l -> unbroken_val (PList l).
Definition unbroken_dict {num} (d : na num) : Prop := forall k v, d k = Some v -> unbroken_val v.
Definition unbroken_opts {num} `{NumOps num} (o : opts num) : Prop :=
  unbroken (o_delim o) /\ (forall x, unbroken (o_fmt o x)) /\ (forall x : num, unbroken (num_str x)).

(** The printed form of a number has a character other than white space and
    the comma. *)
Definition visible (s : str) : Prop := exists c, In c s /\ is_space c = false /\ c <> c_comma.

(** The layout of the header follows the format: one axis for FFI 1020, no
    empty list of axis values in the FFI 2010 family, no ignored lines in FFI
    2160. *)
Definition one_line_items {num} (c : cls) (d : na num) : Prop :=
  match c with
  | C1020 => attr d kNIV = PInt 1
  | C2010 | C3010 | C4010 => exists l, attr d kNXDEF = PList (map PInt l) /\ Forall (fun z => 0 < z)%Z l
  | C2160 => attr d kIGN = PNone \/ attr d kIGN = PList []
  | _ => True
  end.
