(** The writing side of the file classes: nappy/na_file/na_file.py and
    nappy/na_file/na_file_NNNN.py.

    The writer is a state monad with exceptions; the state survives an
    exception, as it does in Python.  [w_na] is at the same time the object's
    attributes and the caller's dictionary: [_parseDictionary]
    (na_file.py:135-142) copies references, and the methods below never rebind
    an attribute that comes from the dictionary, they only mutate lists in
    place.  Simplification: two keys of the dictionary never share one list
    object. *)
From Coq Require Import List NArith ZArith Bool.
From Verif Require Import Py.Str Py.Res Py.Num Model.Dict Model.TextParser Model.CommonUtils.
Import ListNotations.

Record wst {num : Type} := mkW {
  w_file : str;        (* text given to file.write so far *)
  w_head : str;        (* content of the StringIO self.header *)
  w_na   : na num
}.
Arguments wst : clear implicits.
Arguments mkW {num}. Arguments w_file {num}. Arguments w_head {num}. Arguments w_na {num}.

Definition W (num A : Type) := wst num -> Res A * wst num.
Definition retW {num A} (a : A) : W num A := fun s => (Ok a, s).
Definition bindW {num A B} (m : W num A) (f : A -> W num B) : W num B :=
  fun s => match m s with (Ok a, s') => f a s' | (Err e, s') => (Err e, s') end.
Definition liftW {num A} (r : Res A) : W num A := fun s => (r, s).

Declare Scope W_scope.
Delimit Scope W_scope with W.
Notation "x <- m ;; k" := (bindW m (fun x => k))
  (at level 61, m at next level, right associativity) : W_scope.
Notation "m ;;; k" := (bindW m (fun _ => k))
  (at level 61, right associativity) : W_scope.

Fixpoint forW {num A} (l : list A) (f : A -> W num unit) : W num unit :=
  match l with
  | [] => retW tt
  | x :: t => bindW (f x) (fun _ => forW t f)
  end.

Section Writer.
Context {num : Type} `{NumOps num}.
Local Notation pyv := (pyv num).
Local Notation W := (W num).
Variable o : opts num.
Open Scope W_scope.

(** [self.header.write(s)], [self.file.write(s)]. *)
Definition hwrite (s : str) : W unit := fun st =>
  (Ok tt, mkW (w_file st) (w_head st ++ s) (w_na st)).
Definition fwrite (s : str) : W unit := fun st =>
  (Ok tt, mkW (w_file st ++ s) (w_head st) (w_na st)).
(** [self.KEY]. *)
Definition self (k : key) : W pyv := fun st => (Ok (attr (w_na st) k), st).
Definition self_int (k : key) : W Z := v <- self k;; liftW (as_int v).
Definition self_list (k : key) : W (list pyv) := v <- self k;; liftW (as_list v).
(** [self.KEY.reverse()]: in place, hence visible in the caller's dictionary. *)
Definition reverse_in_place (k : key) : W unit :=
  v <- self k;; v' <- liftW (reversed v);;
  (fun st => (Ok tt, mkW (w_file st) (w_head st) (upd (w_na st) k v'))).

Definition wrapLine (item line : str) : W str := liftW (annotateLine o item line None).
Definition wrapLines (item text : str) : W str := liftW (annotateLines o item text).
Definition hwrap (item line : str) : W unit := s <- wrapLine item line;; hwrite s.
Definition hwraps (item text : str) : W unit := s <- wrapLines item text;; hwrite s.

(** [(("%s" + sep) * n + "%s\n") % tuple(l)]: TypeError unless the number of
    conversions is the number of values (a negative [n] counts as 0). *)
Definition fmt_sep (sep : str) (n : Z) (l : list pyv) : Res str :=
  if Nat.eqb (length l) (Z.to_nat n + 1)
  then bindR (mapR fmt_s l) (fun ss => Ok (join sep ss ++ nl))
  else Err ETypeError.

(** ["%s\n" * n % tuple(l)]. *)
Definition fmt_lines (n : Z) (l : list pyv) : Res str :=
  if Nat.eqb (length l) (Z.to_nat n)
  then bindR (mapR fmt_s l) (fun ss => Ok (concat (map (fun s => s ++ nl) ss)))
  else Err ETypeError.

(** [var_string.rstrip(" ,")]. *)
Definition is_sp_comma (c : chr) : bool := ((c =? c_sp) || (c =? c_comma))%N.
Definition rstrip_sc (s : str) : str := rstrip_by is_sp_comma s.

(** [self.format % v], with [self.format = float_format + delimiter]
    (na_file.py:104). *)
Definition fmt_item (v : pyv) : Res str :=
  bindR (fmt_f (o_fmt o) v) (fun s => Ok (s ++ o_delim o)).

(** [self.file.write(wrapLine("Data", ..., "%s\n" % var_string.rstrip(" ,")))]. *)
Definition write_data_line (var_string : str) : W unit :=
  s <- wrapLine (lit "Data") (rstrip_sc var_string ++ nl);; fwrite s.

(** [for i in l: var_string = var_string + (self.format % f(i))]. *)
Definition cat_items {A} (l : list A) (f : A -> Res pyv) : Res str :=
  bindR (mapR (fun i => bindR (f i) fmt_item) l) (fun ss => Ok (concat ss)).

(** na_file.py:201-213 [_writeCommonHeader]. *)
Definition writeCommonHeader : W unit :=
  nlh <- self kNLHEAD;; a <- liftW (fmt_d nlh);;
  ffi <- self kFFI;; b <- liftW (fmt_d ffi);;
  hwrap (lit "NLHEAD_FFI") (a ++ o_delim o ++ b ++ nl);;;
  (a <- liftW (getAnnotation o (lit "ONAME") None);; v <- self kONAME;;
   s <- liftW (stripQuotes v);; hwrite (a ++ s ++ nl));;;
  (a <- liftW (getAnnotation o (lit "ORG") None);; v <- self kORG;;
   s <- liftW (stripQuotes v);; hwrite (a ++ s ++ nl));;;
  (a <- liftW (getAnnotation o (lit "SNAME") None);; v <- self kSNAME;;
   s <- liftW (stripQuotes v);; hwrite (a ++ s ++ nl));;;
  (a <- liftW (getAnnotation o (lit "MNAME") None);; v <- self kMNAME;;
   s <- liftW (stripQuotes v);; hwrite (a ++ s ++ nl));;;
  (iv <- self kIVOL;; a <- liftW (fmt_d iv);;
   nv <- self kNVOL;; b <- liftW (fmt_d nv);;
   hwrap (lit "IVOL_NVOL") (a ++ o_delim o ++ b ++ nl));;;
  (d <- self kDATE;; r <- self kRDATE;;
   d0 <- liftW (bindR (index d 0) fmt_d);; d1 <- liftW (bindR (index d 1) fmt_d);;
   d2 <- liftW (bindR (index d 2) fmt_d);;
   r0 <- liftW (bindR (index r 0) fmt_d);; r1 <- liftW (bindR (index r 1) fmt_d);;
   r2 <- liftW (bindR (index r 2) fmt_d);;
   hwrap (lit "DATE_RDATE")
     (d0 ++ lit " " ++ d1 ++ lit " " ++ d2 ++ o_delim o
      ++ r0 ++ lit " " ++ r1 ++ lit " " ++ r2 ++ nl)).

(** na_file.py:225-233 [_writeVariablesHeaderSection]. *)
Definition writeVariablesHeaderSection : W unit :=
  (v <- self kNV;; s <- liftW (fmt_d v);; hwrap (lit "NV") (s ++ nl));;;
  (nv <- self_int kNV;; l <- self_list kVSCAL;;
   s <- liftW (fmt_sep (o_delim o) (nv - 1) l);; hwrap (lit "VSCAL") s);;;
  (nv <- self_int kNV;; l <- self_list kVMISS;;
   s <- liftW (fmt_sep (o_delim o) (nv - 1) l);; hwrap (lit "VMISS") s);;;
  (nv <- self_int kNV;; l <- self_list kVNAME;;
   s <- liftW (fmt_lines nv l);; hwraps (lit "VNAME") s).

(** na_file.py:246-258 [_writeAuxVariablesHeaderSection]. *)
Definition writeAuxVariablesHeaderSection : W unit :=
  (v <- self kNAUXV;; s <- liftW (fmt_d v);; hwrap (lit "NAUXV") (s ++ nl));;;
  (na <- self_int kNAUXV;;
   if (0 <? na)%Z then
     (l <- self_list kASCAL;; s <- liftW (fmt_sep (o_delim o) (na - 1) l);;
      hwrap (lit "ASCAL") s);;;
     (l <- self_list kAMISS;; s <- liftW (fmt_sep (o_delim o) (na - 1) l);;
      hwrap (lit "AMISS") s);;;
     (l <- self_list kANAME;; s <- liftW (fmt_lines na l);;
      hwraps (lit "ANAME") s)
   else retW tt).

(** na_file_2160.py:65-82 [_writeAuxVariablesHeaderSection] of FFI 2160. *)
Definition writeAuxVariablesHeaderSection_2160 : W unit :=
  (v <- self kNAUXV;; s <- liftW (fmt_d v);; hwrap (lit "NAUXV") (s ++ nl));;;
  (v <- self kNAUXC;; s <- liftW (fmt_d v);; hwrap (lit "NAUXC") (s ++ nl));;;
  (na <- self_int kNAUXV;;
   if (0 <? na)%Z then
     nc <- self_int kNAUXC;;
     (l <- self_list kASCAL;; s <- liftW (fmt_sep (o_delim o) (na - nc - 1) l);;
      hwrap (lit "ASCAL") s);;;
     (l <- self_list kAMISS;; s <- liftW (fmt_sep (o_delim o) (na - nc - 1) (slice_to l (na - nc)));;
      hwrap (lit "AMISS") s);;;
     (l <- self_list kLENA;; s <- liftW (fmt_sep (o_delim o) (nc - 1) (slice_from l (na - nc)));;
      hwrap (lit "LENA") s);;;
     (l <- self_list kAMISS;; s <- liftW (fmt_lines nc (slice_from l (na - nc)));;
      hwraps (lit "AMISS") s);;;
     (l <- self_list kANAME;; s <- liftW (fmt_lines na l);;
      hwraps (lit "ANAME") s)
   else retW tt).

(** na_file.py:287-295 [_writeComments]. *)
Definition writeComments : W unit :=
  (v <- self kNSCOML;; s <- liftW (fmt_d v);; hwrap (lit "NSCOML") (s ++ nl));;;
  (n <- self_int kNSCOML;; l <- self_list kSCOM;;
   s <- liftW (fmt_lines n l);; hwraps (lit "SCOM") s);;;
  (v <- self kNNCOML;; s <- liftW (fmt_d v);; hwrap (lit "NNCOML") (s ++ nl));;;
  (n <- self_int kNNCOML;; l <- self_list kNCOM;;
   s <- liftW (fmt_lines n l);; hwraps (lit "NCOM") s).

(** na_file.py:297-308 [_fixHeaderLength]. *)
Definition fixHeaderLength : W unit := fun st =>
  let ls := lines (w_head st) in
  match fmt_d (attr (w_na st) kFFI) with
  | Err e => (Err e, st)
  | Ok ffi =>
    match annotateLine o (lit "NLHEAD_FFI")
            (dec_of_nat (length ls) ++ o_delim o ++ ffi ++ nl) None with
    | Err e => (Err e, st)
    | Ok l0 =>
      match ls with
      | [] => (Err EIndexError, st)
      | _ :: rest => (Ok tt, mkW (w_file st) (l0 ++ concat rest) (w_na st))
      end
    end
  end.

(** [self.file.write(self.header.read())]; the position of the StringIO is at
    the start after [_fixHeaderLength]. *)
Definition flushHeader : W unit := fun st =>
  (Ok tt, mkW (w_file st ++ w_head st) (w_head st) (w_na st)).

(** na_file_1001.py:45-48: [DX] and [XNAME] lines of FFI 1001.  The annotation
    is part of the format string. *)
Definition writeHeader_1001 : W unit :=
  writeCommonHeader;;;
  (a <- liftW (getAnnotation o (lit "DX") None);;
   niv <- self_int kNIV;; l <- self_list kDX;;
   s <- liftW (if Nat.eqb (length l) (Z.to_nat niv)
               then bindR (mapR fmt_s l) (fun ss => Ok (a ++ concat ss ++ nl))
               else Err ETypeError);;
   hwrite s);;;
  (a <- liftW (getAnnotation o (lit "XNAME") None);;
   niv <- self_int kNIV;; l <- self_list kXNAME;;
   s <- liftW (if Nat.eqb (length l) (Z.to_nat niv)
               then bindR (mapR fmt_s l) (fun ss => Ok (concat (map (fun s => a ++ s ++ nl) ss)))
               else Err ETypeError);;
   hwrite s);;;
  writeVariablesHeaderSection;;;
  writeComments;;;
  fixHeaderLength;;;
  flushHeader.

(** na_file_1010.py:46: [("%s " * self.NIV + "\n") % tuple(self.DX)]. *)
Definition fmt_dx_1010 (niv : Z) (l : list pyv) : Res str :=
  if Nat.eqb (length l) (Z.to_nat niv)
  then bindR (mapR fmt_s l) (fun ss => Ok (concat (map (fun s => s ++ lit " ") ss) ++ nl))
  else Err ETypeError.

(** na_file_1010.py:41-52 [writeHeader]. *)
Definition writeHeader_1010 : W unit :=
  writeCommonHeader;;;
  (niv <- self_int kNIV;; l <- self_list kDX;;
   s <- liftW (fmt_dx_1010 niv l);; hwrap (lit "DX") s);;;
  (niv <- self_int kNIV;; l <- self_list kXNAME;;
   s <- liftW (fmt_lines niv l);; hwraps (lit "XNAME") s);;;
  writeVariablesHeaderSection;;;
  writeAuxVariablesHeaderSection;;;
  writeComments;;;
  fixHeaderLength;;;
  flushHeader.

(** na_file_1020.py:45-57 [writeHeader]. *)
Definition writeHeader_1020 : W unit :=
  writeCommonHeader;;;
  (niv <- self_int kNIV;; l <- self_list kDX;;
   s <- liftW (fmt_dx_1010 niv l);; hwrap (lit "DX") s);;;
  (v <- self kNVPM;; s <- liftW (fmt_s v);; hwrap (lit "NVPM") (s ++ nl));;;
  (niv <- self_int kNIV;; l <- self_list kXNAME;;
   s <- liftW (fmt_lines niv l);; hwrap (lit "XNAME") s);;;
  writeVariablesHeaderSection;;;
  writeAuxVariablesHeaderSection;;;
  writeComments;;;
  fixHeaderLength;;;
  flushHeader.

(** na_file_2010.py:71-72: one line of axis values,
    [(self.format * self.NXDEF[i] % tuple(self.X[i + 1][0:self.NXDEF[i]])).rstrip(" ,") + "\n"]. *)
Definition x_line (nxdef X : pyv) (i : nat) : Res str :=
  (do nv <- index nxdef i; do n <- as_int nv;
   do xi <- index X (i + 1); do xs <- as_list xi;
   let vals := slice_to xs n in
   if Nat.eqb (length vals) (Z.to_nat n)
   then do ss <- mapR fmt_item vals; Ok (rstrip_sc (concat ss) ++ nl)
   else Err ETypeError)%res.

(** na_file_2010.py:54-85 [writeHeader] (also FFI 3010 and 4010). *)
Definition writeHeader_2010 : W unit :=
  writeCommonHeader;;;
  reverse_in_place kDX;;;
  (niv <- self_int kNIV;; l <- self_list kDX;;
   s <- liftW (fmt_sep (o_delim o) (niv - 1) l);; hwrap (lit "DX") s);;;
  reverse_in_place kNX;;;
  (niv <- self_int kNIV;; l <- self_list kNX;;
   s <- liftW (fmt_sep (o_delim o) (niv - 2) l);; hwrap (lit "NX") s);;;
  (niv <- self_int kNIV;; l <- self_list kNXDEF;;
   s <- liftW (fmt_sep (o_delim o) (niv - 2) (rev l));; hwrap (lit "NXDEF") s);;;
  (niv <- self_int kNIV;; nxdef <- self kNXDEF;; X <- self kX;;
   xl <- liftW (mapR (x_line nxdef X) (range (niv - 1)));;
   forW (rev xl) (fun line => hwrap (lit "X") (lstrip line)));;;
  (niv <- self_int kNIV;; l <- self_list kXNAME;;
   s <- liftW (fmt_lines niv (rev l));; hwraps (lit "XNAME") s);;;
  writeVariablesHeaderSection;;;
  writeAuxVariablesHeaderSection;;;
  writeComments;;;
  fixHeaderLength;;;
  flushHeader.

(** na_file_2110.py:41-56 [writeHeader]. *)
Definition writeHeader_2110 : W unit :=
  writeCommonHeader;;;
  reverse_in_place kDX;;;
  (niv <- self_int kNIV;; l <- self_list kDX;;
   s <- liftW (fmt_sep (o_delim o) (niv - 1) l);; hwrap (lit "DX") s);;;
  reverse_in_place kXNAME;;;
  (niv <- self_int kNIV;; l <- self_list kXNAME;;
   s <- liftW (fmt_lines niv l);; hwraps (lit "XNAME") s);;;
  writeVariablesHeaderSection;;;
  writeAuxVariablesHeaderSection;;;
  writeComments;;;
  fixHeaderLength;;;
  flushHeader.

(** na_file_2160.py:43-63 [writeHeader].  The ignored header lines go directly
    to the file, before the header is built.  [if self.ignored_header_lines]
    is false for the empty list and None. *)
Definition writeHeader_2160 : W unit :=
  (ign <- self kIGN;;
   match ign with
   | PNone | PList [] => retW tt
   | PList l =>
       ss <- liftW (mapR (fun v => match v with PStr s => Ok s | _ => Err ETypeError end) l);;
       fwrite (join nl ss);;; fwrite nl
   | _ => liftW (Err EUnmodelled)
   end);;;
  writeCommonHeader;;;
  reverse_in_place kDX;;;
  (l <- self_list kDX;; s <- liftW (fmt_sep [] 0 l);; hwrap (lit "DX") s);;;
  (v <- self kLENX;; s <- liftW (fmt_s v);; hwrap (lit "LENX") (s ++ nl));;;
  reverse_in_place kXNAME;;;
  (niv <- self_int kNIV;; l <- self_list kXNAME;;
   s <- liftW (fmt_lines niv l);; hwraps (lit "XNAME") s);;;
  writeVariablesHeaderSection;;;
  writeAuxVariablesHeaderSection_2160;;;
  writeComments;;;
  fixHeaderLength;;;
  flushHeader.

(** na_file_2310.py:41-54 [writeHeader]. *)
Definition writeHeader_2310 : W unit :=
  writeCommonHeader;;;
  (v <- self kDX;; d <- liftW (index v 0);; s <- liftW (fmt_s d);; hwrap (lit "DX") (s ++ nl));;;
  reverse_in_place kXNAME;;;
  (niv <- self_int kNIV;; l <- self_list kXNAME;;
   s <- liftW (fmt_lines niv l);; hwraps (lit "XNAME") s);;;
  writeVariablesHeaderSection;;;
  writeAuxVariablesHeaderSection;;;
  writeComments;;;
  fixHeaderLength;;;
  flushHeader.

(** Nested indexing [v[i][j]] and [v[i][j][k]]. *)
Definition index2 (v : pyv) (i j : nat) : Res pyv := bindR (index v i) (fun w => index w j).
Definition index3 (v : pyv) (i j k : nat) : Res pyv := bindR (index2 v i j) (fun w => index w k).

(** [range(len(self.X))]. *)
Definition range_len (v : pyv) : Res (list nat) :=
  bindR (as_list v) (fun l => Ok (seq 0 (length l))).

(** na_file_1001.py:84-96 [writeData].  The attributes used are not modified
    by the loop, so they are fetched where they are first used. *)
Definition writeData_1001 : W unit :=
  X <- self kX;; ms <- liftW (range_len X);;
  forW ms (fun m =>
    xs <- liftW (cat_items [m] (fun m => index X m));;
    nv <- self_int kNV;; V <- self kV;;
    vs <- liftW (cat_items (range nv) (fun n => index2 V n m));;
    write_data_line (xs ++ vs)).

(** The line with the independent variable mark and the auxiliary variables,
    na_file_1010.py:103-108 and the same code in the other classes. *)
Definition write_x_aux (x : Res pyv) (m : nat) : W unit :=
  xs <- liftW (cat_items [tt] (fun _ => x));;
  nauxv <- self_int kNAUXV;; A <- self kA;;
  avs <- liftW (cat_items (range nauxv) (fun a => index2 A a m));;
  write_data_line (xs ++ avs).

(** na_file_1010.py:96-115 [writeData]. *)
Definition writeData_1010 : W unit :=
  X <- self kX;; ms <- liftW (range_len X);;
  forW ms (fun m =>
    write_x_aux (index X m) m;;;
    nv <- self_int kNV;; V <- self kV;;
    vs <- liftW (cat_items (range nv) (fun n => index2 V n m));;
    write_data_line vs).

(** na_file_1020.py:86-110 [writeData].  [var_ind = m*NVPM + p] is never
    negative because [p] ranges over [range(NVPM)]. *)
Definition writeData_1020 : W unit :=
  X <- self kX;; ms <- liftW (range_len X);;
  forW ms (fun m =>
    write_x_aux (index X m) m;;;
    nv <- self_int kNV;;
    forW (range nv) (fun n =>
      nvpm <- self_int kNVPM;; V <- self kV;;
      vs <- liftW (cat_items (range nvpm)
                    (fun p => index2 V n (m * Z.to_nat nvpm + p)));;
      write_data_line vs)).

(** list_manipulator.py:87-103 [writeLines] (through [recursiveListWriter],
    :55-57): the list of lines.  [dimlist[0]] of an empty list raises
    IndexError. *)
Fixpoint writeLines (inlist : pyv) (dimlist : list Z) : Res (list str) :=
  match dimlist with
  | [] => Err EIndexError
  | [d] =>
      bindR (cat_items (range d) (fun i => index inlist i))
            (fun var_string => Ok [rstrip_sc var_string ++ nl])
  | d :: rest =>
      bindR (mapR (fun i => bindR (index inlist i) (fun sub => writeLines sub rest)) (range d))
            (fun lls => Ok (concat lls))
  end.

Definition ints_of (l : list pyv) : Res (list Z) := mapR as_int l.

(** na_file_2010.py:130-150 [writeData] (also FFI 3010 and 4010).
    [self.NX.reverse()] undoes the reversal made by [writeHeader]. *)
Definition writeData_2010 : W unit :=
  reverse_in_place kNX;;;
  X <- self kX;; x0 <- liftW (index X 0);; ms <- liftW (range_len x0);;
  forW ms (fun m =>
    write_x_aux (index x0 m) m;;;
    nv <- self_int kNV;;
    forW (range nv) (fun n =>
      V <- self kV;; v <- liftW (index2 V n m);;
      nx <- self_list kNX;; dims <- liftW (ints_of nx);;
      outlines <- liftW (writeLines v dims);;
      forW outlines (fun line => s <- wrapLine (lit "Data") line;; fwrite s))).

(** The inner block of na_file_2110.py:132-138 (and na_file_2160.py:152-158). *)
Definition write_inner_2110 (X : pyv) (m : nat) : W unit :=
  nxv <- self kNX;; nxm <- liftW (bindR (index nxv m) as_int);;
  forW (range nxm) (fun p =>
    xs <- liftW (cat_items [p] (fun p => index3 X m 1 p));;
    nv <- self_int kNV;; V <- self kV;;
    vs <- liftW (cat_items (range nv) (fun n => index3 V n m p));;
    write_data_line (xs ++ vs)).

(** na_file_2110.py:114-138 [writeData]. *)
Definition writeData_2110 : W unit :=
  X <- self kX;; ms <- liftW (range_len X);;
  forW ms (fun m =>
    write_x_aux (index2 X m 0) m;;;
    write_inner_2110 X m).

(** na_file_2160.py:129-158 [writeData]. *)
Definition writeData_2160 : W unit :=
  X <- self kX;; ms <- liftW (range_len X);;
  forW ms (fun m =>
    xs <- liftW (bindR (index2 X m 0) fmt_s);;
    write_data_line xs;;;
    na <- self_int kNAUXV;; nc <- self_int kNAUXC;; A <- self kA;;
    avs <- liftW (cat_items (range (na - nc)) (fun a => index2 A a m));;
    write_data_line avs;;;
    forW (range nc) (fun a =>
      s <- liftW (bindR (index2 A (Z.to_nat (na - nc) + a) m) fmt_s);;
      write_data_line (s ++ o_delim o));;;
    write_inner_2110 X m).

(** na_file_2310.py:92-115 [writeData]: one line per mark, the values of all
    variables interleaved point by point. *)
Definition writeData_2310 : W unit :=
  X <- self kX;; ms <- liftW (range_len X);;
  forW ms (fun m =>
    write_x_aux (index2 X m 0) m;;;
    nxv <- self kNX;; nxm <- liftW (bindR (index nxv m) as_int);;
    nv <- (match range nxm with [] => retW 0%Z | _ => self_int kNV end);;
    V <- self kV;;
    vs <- liftW (cat_items (flat_map (fun p => map (fun n => (p, n)) (range nv)) (range nxm))
                  (fun pn => index3 V (snd pn) m (fst pn)));;
    write_data_line vs).

Definition writeHeader (c : cls) : W unit :=
  match c with
  | C1001 => writeHeader_1001
  | C1010 => writeHeader_1010
  | C1020 => writeHeader_1020
  | C2010 | C3010 | C4010 => writeHeader_2010
  | C2110 => writeHeader_2110
  | C2160 => writeHeader_2160
  | C2310 => writeHeader_2310
  end.

Definition writeData (c : cls) : W unit :=
  match c with
  | C1001 => writeData_1001
  | C1010 => writeData_1010
  | C1020 => writeData_1020
  | C2010 | C3010 | C4010 => writeData_2010
  | C2110 => writeData_2110
  | C2160 => writeData_2160
  | C2310 => writeData_2310
  end.

(** na_file.py:117-125, the part of [write] after the checks: a fresh header
    buffer, header unless [no_header], then data. *)
Definition write_body (c : cls) (no_header : bool) : W unit :=
  (fun st => (Ok tt, mkW (w_file st) [] (w_na st)));;;
  (if no_header then retW tt else writeHeader c);;;
  writeData c.

End Writer.
