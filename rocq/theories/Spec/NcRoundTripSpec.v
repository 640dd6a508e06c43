(** Vocabulary for variables that go through a NASA Ames file (properties C78 to
    C80). *)
From Coq Require Import List NArith ZArith Bool.
From Verif Require Import Py.Str Py.Res Py.Num Py.Arith Model.Dict Spec.Records Model.Xarray Model.Collector.
Import ListNotations.

Section Spec.
Context {num : Type} `{NumOps num} `{ArithOps num}.
Local Notation xvar := (xvar num).
Local Notation pyv := (pyv num).

(** The missing value of a variable as a number; [fill] is the default. *)
Definition miss_num (fill : num) (v : xvar) : option num :=
  match Xarray.v_miss v with
  | None => Some fill
  | Some (PNum x) => Some x
  | Some (PInt z) => Some (num_of_Z z)
  | _ => None
  end.
(** A list of [n] numbers, not times, with a number as missing value. *)
Definition column (fill : num) (n : nat) (v : xvar) : Prop :=
  v_time v = None /\ miss_num fill v <> None /\ exists l, v_data v = PList (map PNum l) /\ length l = n.

(** The values of a variable when they come back from a file: missing cells
    have the missing value, every number is changed by [g] (to the number that
    its output format stands for). *)
Definition returned (g : num -> num) (fill : num) (v : xvar) : pyv :=
  match v_data v, miss_num fill v with
  | PList l, Some m => PList (map (fun c => match c with PNum x => PNum (g (if num_isnan x then m else x)) | _ => c end) l)
  | _, _ => PNone
  end.

(** The parts of the header that come from global attributes can be written:
    ONAME, ORG, SNAME and MNAME are texts, DATE is a date, and comments have no
    carriage return. *)
Definition writable_header (d : na num) : Prop :=
  (exists a b s m, d kONAME = Some (PStr a) /\ d kORG = Some (PStr b) /\ d kSNAME = Some (PStr s) /\ d kMNAME = Some (PStr m) /\
     title_ok a /\ title_ok b /\ title_ok s /\ title_ok m) /\
  (exists t, d kDATE = Some (date_pv t)) /\ (exists t, d kRDATE = Some (date_pv t)) /\
  forall k l s, (k = kSCOM \/ k = kNCOM) -> d k = Some (PList (map PStr l)) -> In s l -> ~ In c_cr s.

(** A converted dictionary of format 1001 with the axis [a] that can be written:
    the header as above, all main variables are columns along the axis, and the
    names are single lines that do not end with white space or an annotation
    in braces. *)
Definition table (fill : num) (c : collected num) (d : na num) (a : axis num) : Prop :=
  c_na c = Some d /\ d kFFI = Some (PInt 1001) /\ (exists v rest, c_main c = v :: rest /\ v_axes v = [a]) /\
  length (ax_nums a) = length (ax_vals a) /\ writable_header d /\ Forall (column fill (length (ax_nums a))) (c_main c) /\
  (forall s, getBestName (ax_info a) = Ok s -> name_ok s) /\ (forall w s, In w (c_main c) -> getBestName (v_info w) = Ok s -> name_ok s).
End Spec.
