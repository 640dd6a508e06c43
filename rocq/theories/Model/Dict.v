(** Dynamically typed values and the NASA Ames dictionary. *)
From Coq Require Import List NArith ZArith Bool.
From Verif Require Import Py.Str Py.Res Py.Num.
Import ListNotations.

(** Values found in a NASA Ames dictionary (see na_core.py:27-32 for the keys).
    [PNum] is a floating point number (or any Python number in the data).
    Simplification: numpy/xarray arrays stored by the NetCDF interface are
    represented as (nested) lists. *)
Inductive pyv {num : Type} :=
| PNone
| PInt (z : Z)
| PNum (x : num)
| PStr (s : str)
| PList (l : list pyv).
Arguments pyv : clear implicits.

(** na_core.py:27-32, [NACore.na_dictionary_keys].
    Simplification: other keys of a dictionary are ignored. *)
Inductive key :=
| kA | kAMISS | kANAME | kASCAL | kDATE | kDX | kFFI | kIVOL | kLENA | kLENX
| kMNAME | kNAUXC | kNAUXV | kNCOM | kNIV | kNLHEAD | kNNCOML | kNSCOML | kNV
| kNVOL | kNVPM | kNX | kNXDEF | kONAME | kORG | kRDATE | kSCOM | kSNAME | kV
| kVMISS | kVNAME | kVSCAL | kX | kXNAME | kIGN (* ignored_header_lines *).

Definition all_keys : list key :=
  [kA; kAMISS; kANAME; kASCAL; kDATE; kDX; kFFI; kIVOL; kLENA; kLENX;
   kMNAME; kNAUXC; kNAUXV; kNCOM; kNIV; kNLHEAD; kNNCOML; kNSCOML; kNV;
   kNVOL; kNVPM; kNX; kNXDEF; kONAME; kORG; kRDATE; kSCOM; kSNAME; kV;
   kVMISS; kVNAME; kVSCAL; kX; kXNAME; kIGN].

Scheme Equality for key.

(** A dictionary; [None] means that the key is absent. *)
Definition na (num : Type) := key -> option (pyv num).

Definition na_empty {num} : na num := fun _ => None.
Definition upd {num} (d : na num) (k : key) (v : pyv num) : na num :=
  fun k' => if key_beq k k' then Some v else d k'.

(** Attribute of an NAFile object after [_parseDictionary]
    (na_file.py:135-142): the dictionary's value, else the default set by
    [NACore.__init__] (na_core.py:35-42, None) or by [NAFile.__init__]
    (na_file.py:67, the empty list). *)
Definition default_attr {num} (k : key) : pyv num :=
  match k with kIGN => PList [] | _ => PNone end.
Definition attr {num} (d : na num) (k : key) : pyv num :=
  match d k with Some v => v | None => default_attr k end.

Section Values.
Context {num : Type} `{NumOps num}.
Local Notation pyv := (pyv num).

(** Python operations on values, used by the model below. *)

(** an [int] operand ([range(n)], [s * n], [n - 1]).  None, strings, floats and
    lists raise TypeError. *)
Definition as_int (v : pyv) : Res Z :=
  match v with PInt z => Ok z | _ => Err ETypeError end.

(** [range(n)], as natural numbers. *)
Definition range (z : Z) : list nat := seq 0 (Z.to_nat z).

(** [tuple(v)] / [v[:]] for sequences. *)
Definition as_list (v : pyv) : Res (list pyv) :=
  match v with
  | PList l => Ok l
  | PStr s => Ok (map (fun c => PStr [c]) s)
  | _ => Err ETypeError
  end.

(** [v[i]] with a natural index. *)
Definition index (v : pyv) (i : nat) : Res pyv :=
  bindR (as_list v) (fun l => nth_res l i).

(** ["%s" % v]. *)
Definition fmt_s (v : pyv) : Res str :=
  match v with
  | PStr s => Ok s
  | PInt z => Ok (dec_of_Z z)
  | PNum x => Ok (num_str x)
  | PNone => Ok (lit "None")
  | PList _ => Err EUnmodelled
  end.

(** ["%d" % v]. *)
Definition fmt_d (v : pyv) : Res str :=
  match v with
  | PInt z => Ok (dec_of_Z z)
  | PNum x => match num_trunc x with Some z => Ok (dec_of_Z z) | None => Err EValueError end
  | _ => Err ETypeError
  end.

(** [float_format % v].  [fmt] is the formatting of a number.
    Simplification: [float_format] is a numeric conversion, so strings, None and
    lists raise TypeError. *)
Definition fmt_f (fmt : num -> str) (v : pyv) : Res str :=
  match v with
  | PNum x => Ok (fmt x)
  | PInt z => Ok (fmt (num_of_Z z))
  | _ => Err ETypeError
  end.

(** [v.append(x)]. *)
Definition app_item (x v : pyv) : Res pyv :=
  match v with PList l => Ok (PList (l ++ [x])) | _ => Err EAttributeError end.

(** Apply an in-place operation to [l[i]]. *)
Fixpoint modify_nth (l : list pyv) (i : nat) (f : pyv -> Res pyv) : Res (list pyv) :=
  match l, i with
  | [], _ => Err EIndexError
  | v :: t, O => bindR (f v) (fun v' => Ok (v' :: t))
  | v :: t, S i' => bindR (modify_nth t i' f) (fun t' => Ok (v :: t'))
  end.
(** The same when the list is itself a value. *)
Definition modify_in (v : pyv) (i : nat) (f : pyv -> Res pyv) : Res pyv :=
  match v with
  | PList l => bindR (modify_nth l i f) (fun l' => Ok (PList l'))
  | _ => Err ETypeError
  end.

(** [v.reverse()] in place. *)
Definition reversed (v : pyv) : Res pyv :=
  match v with PList l => Ok (PList (rev l)) | _ => Err EAttributeError end.

End Values.

(** A [for] loop threading a state, stopping at the first exception. *)
Fixpoint forR {A S} (l : list A) (f : A -> S -> Res S) (s : S) : Res S :=
  match l with
  | [] => Ok s
  | x :: t => bindR (f x s) (fun s' => forR t f s')
  end.
