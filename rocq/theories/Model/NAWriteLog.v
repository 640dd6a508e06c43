(** The writing side once more, at the granularity of single [file.write] calls.

    Same functions of the code and same structure as Model/NAWrite.v; the only
    difference is that the state records the list of texts given to
    [self.file.write] call by call, instead of their concatenation.  That the two
    agree is proved in Proofs/LogErase.v.  Pure helpers are shared. *)
From Coq Require Import List NArith ZArith Bool.
From Verif Require Import Py.Str Py.Res Py.Num Model.Dict Model.TextParser Model.CommonUtils Model.NAWrite.
Import ListNotations.

Record lst {num : Type} := mkL {
  l_calls : list str;  (* arguments of the calls of file.write so far, oldest first *)
  l_head  : str;       (* content of the StringIO self.header *)
  l_na    : na num
}.
Arguments lst : clear implicits.
Arguments mkL {num}. Arguments l_calls {num}. Arguments l_head {num}. Arguments l_na {num}.

Definition L (num A : Type) := lst num -> Res A * lst num.
Definition retL {num A} (a : A) : L num A := fun s => (Ok a, s).
Definition bindL {num A B} (m : L num A) (f : A -> L num B) : L num B :=
  fun s => match m s with (Ok a, s') => f a s' | (Err e, s') => (Err e, s') end.
Definition liftL {num A} (r : Res A) : L num A := fun s => (r, s).

Declare Scope L_scope.
Delimit Scope L_scope with L.
Notation "x <- m ;; k" := (bindL m (fun x => k))
  (at level 61, m at next level, right associativity) : L_scope.
Notation "m ;;; k" := (bindL m (fun _ => k))
  (at level 61, right associativity) : L_scope.

Fixpoint forL {num A} (l : list A) (f : A -> L num unit) : L num unit :=
  match l with
  | [] => retL tt
  | x :: t => bindL (f x) (fun _ => forL t f)
  end.

Section Writer.
Context {num : Type} `{NumOps num}.
Local Notation pyv := (pyv num).
Local Notation L := (L num).
Variable o : opts num.
Open Scope L_scope.

(** [self.header.write(s)], [self.file.write(s)]. *)
Definition hwrite (s : str) : L unit := fun st =>
  (Ok tt, mkL (l_calls st) (l_head st ++ s) (l_na st)).
Definition fwrite (s : str) : L unit := fun st =>
  (Ok tt, mkL (l_calls st ++ [s]) (l_head st) (l_na st)).
(** [self.KEY]. *)
Definition self (k : key) : L pyv := fun st => (Ok (attr (l_na st) k), st).
Definition self_int (k : key) : L Z := v <- self k;; liftL (as_int v).
Definition self_list (k : key) : L (list pyv) := v <- self k;; liftL (as_list v).
(** [self.KEY.reverse()]: in place, hence visible in the caller's dictionary. *)
Definition reverse_in_place (k : key) : L unit :=
  v <- self k;; v' <- liftL (reversed v);;
  (fun st => (Ok tt, mkL (l_calls st) (l_head st) (upd (l_na st) k v'))).

Definition wrapLine (item line : str) : L str := liftL (annotateLine o item line None).
Definition wrapLines (item text : str) : L str := liftL (annotateLines o item text).
Definition hwrap (item line : str) : L unit := s <- wrapLine item line;; hwrite s.
Definition hwraps (item text : str) : L unit := s <- wrapLines item text;; hwrite s.

(** [self.file.write(wrapLine("Data", ..., "%s\n" % var_string.rstrip(" ,")))]. *)
Definition write_data_line (var_string : str) : L unit :=
  s <- wrapLine (lit "Data") (rstrip_sc var_string ++ nl);; fwrite s.

(** na_file.py:201-213 [_writeCommonHeader]. *)
Definition writeCommonHeader : L unit :=
  nlh <- self kNLHEAD;; a <- liftL (fmt_d nlh);;
  ffi <- self kFFI;; b <- liftL (fmt_d ffi);;
  hwrap (lit "NLHEAD_FFI") (a ++ o_delim o ++ b ++ nl);;;
  (a <- liftL (getAnnotation o (lit "ONAME") None);; v <- self kONAME;;
   s <- liftL (stripQuotes v);; hwrite (a ++ s ++ nl));;;
  (a <- liftL (getAnnotation o (lit "ORG") None);; v <- self kORG;;
   s <- liftL (stripQuotes v);; hwrite (a ++ s ++ nl));;;
  (a <- liftL (getAnnotation o (lit "SNAME") None);; v <- self kSNAME;;
   s <- liftL (stripQuotes v);; hwrite (a ++ s ++ nl));;;
  (a <- liftL (getAnnotation o (lit "MNAME") None);; v <- self kMNAME;;
   s <- liftL (stripQuotes v);; hwrite (a ++ s ++ nl));;;
  (iv <- self kIVOL;; a <- liftL (fmt_d iv);;
   nv <- self kNVOL;; b <- liftL (fmt_d nv);;
   hwrap (lit "IVOL_NVOL") (a ++ o_delim o ++ b ++ nl));;;
  (d <- self kDATE;; r <- self kRDATE;;
   d0 <- liftL (bindR (index d 0) fmt_d);; d1 <- liftL (bindR (index d 1) fmt_d);;
   d2 <- liftL (bindR (index d 2) fmt_d);;
   r0 <- liftL (bindR (index r 0) fmt_d);; r1 <- liftL (bindR (index r 1) fmt_d);;
   r2 <- liftL (bindR (index r 2) fmt_d);;
   hwrap (lit "DATE_RDATE")
     (d0 ++ lit " " ++ d1 ++ lit " " ++ d2 ++ o_delim o
      ++ r0 ++ lit " " ++ r1 ++ lit " " ++ r2 ++ nl)).

(** na_file.py:225-233 [_writeVariablesHeaderSection]. *)
Definition writeVariablesHeaderSection : L unit :=
  (v <- self kNV;; s <- liftL (fmt_d v);; hwrap (lit "NV") (s ++ nl));;;
  (nv <- self_int kNV;; l <- self_list kVSCAL;;
   s <- liftL (fmt_sep (o_delim o) (nv - 1) l);; hwrap (lit "VSCAL") s);;;
  (nv <- self_int kNV;; l <- self_list kVMISS;;
   s <- liftL (fmt_sep (o_delim o) (nv - 1) l);; hwrap (lit "VMISS") s);;;
  (nv <- self_int kNV;; l <- self_list kVNAME;;
   s <- liftL (fmt_lines nv l);; hwraps (lit "VNAME") s).

(** na_file.py:246-258 [_writeAuxVariablesHeaderSection]. *)
Definition writeAuxVariablesHeaderSection : L unit :=
  (v <- self kNAUXV;; s <- liftL (fmt_d v);; hwrap (lit "NAUXV") (s ++ nl));;;
  (na <- self_int kNAUXV;;
   if (0 <? na)%Z then
     (l <- self_list kASCAL;; s <- liftL (fmt_sep (o_delim o) (na - 1) l);;
      hwrap (lit "ASCAL") s);;;
     (l <- self_list kAMISS;; s <- liftL (fmt_sep (o_delim o) (na - 1) l);;
      hwrap (lit "AMISS") s);;;
     (l <- self_list kANAME;; s <- liftL (fmt_lines na l);;
      hwraps (lit "ANAME") s)
   else retL tt).

(** na_file_2160.py:65-82 [_writeAuxVariablesHeaderSection] of FFI 2160. *)
Definition writeAuxVariablesHeaderSection_2160 : L unit :=
  (v <- self kNAUXV;; s <- liftL (fmt_d v);; hwrap (lit "NAUXV") (s ++ nl));;;
  (v <- self kNAUXC;; s <- liftL (fmt_d v);; hwrap (lit "NAUXC") (s ++ nl));;;
  (na <- self_int kNAUXV;;
   if (0 <? na)%Z then
     nc <- self_int kNAUXC;;
     (l <- self_list kASCAL;; s <- liftL (fmt_sep (o_delim o) (na - nc - 1) l);;
      hwrap (lit "ASCAL") s);;;
     (l <- self_list kAMISS;; s <- liftL (fmt_sep (o_delim o) (na - nc - 1) (slice_to l (na - nc)));;
      hwrap (lit "AMISS") s);;;
     (l <- self_list kLENA;; s <- liftL (fmt_sep (o_delim o) (nc - 1) (slice_from l (na - nc)));;
      hwrap (lit "LENA") s);;;
     (l <- self_list kAMISS;; s <- liftL (fmt_lines nc (slice_from l (na - nc)));;
      hwraps (lit "AMISS") s);;;
     (l <- self_list kANAME;; s <- liftL (fmt_lines na l);;
      hwraps (lit "ANAME") s)
   else retL tt).

(** na_file.py:287-295 [_writeComments]. *)
Definition writeComments : L unit :=
  (v <- self kNSCOML;; s <- liftL (fmt_d v);; hwrap (lit "NSCOML") (s ++ nl));;;
  (n <- self_int kNSCOML;; l <- self_list kSCOM;;
   s <- liftL (fmt_lines n l);; hwraps (lit "SCOM") s);;;
  (v <- self kNNCOML;; s <- liftL (fmt_d v);; hwrap (lit "NNCOML") (s ++ nl));;;
  (n <- self_int kNNCOML;; l <- self_list kNCOM;;
   s <- liftL (fmt_lines n l);; hwraps (lit "NCOM") s).

(** na_file.py:297-308 [_fixHeaderLength]. *)
Definition fixHeaderLength : L unit := fun st =>
  let ls := lines (l_head st) in
  match fmt_d (attr (l_na st) kFFI) with
  | Err e => (Err e, st)
  | Ok ffi =>
    match annotateLine o (lit "NLHEAD_FFI")
            (dec_of_nat (length ls) ++ o_delim o ++ ffi ++ nl) None with
    | Err e => (Err e, st)
    | Ok l0 =>
      match ls with
      | [] => (Err EIndexError, st)
      | _ :: rest => (Ok tt, mkL (l_calls st) (l0 ++ concat rest) (l_na st))
      end
    end
  end.

(** [self.file.write(self.header.read())]; the position of the StringIO is at
    the start after [_fixHeaderLength]. *)
Definition flushHeader : L unit := fun st =>
  (Ok tt, mkL (l_calls st ++ [l_head st]) (l_head st) (l_na st)).

(** na_file_1001.py:45-48: [DX] and [XNAME] lines of FFI 1001.  The annotation
    is part of the format string. *)
Definition writeHeader_1001 : L unit :=
  writeCommonHeader;;;
  (a <- liftL (getAnnotation o (lit "DX") None);;
   niv <- self_int kNIV;; l <- self_list kDX;;
   s <- liftL (if Nat.eqb (length l) (Z.to_nat niv)
               then bindR (mapR fmt_s l) (fun ss => Ok (a ++ concat ss ++ nl))
               else Err ETypeError);;
   hwrite s);;;
  (a <- liftL (getAnnotation o (lit "XNAME") None);;
   niv <- self_int kNIV;; l <- self_list kXNAME;;
   s <- liftL (if Nat.eqb (length l) (Z.to_nat niv)
               then bindR (mapR fmt_s l) (fun ss => Ok (concat (map (fun s => a ++ s ++ nl) ss)))
               else Err ETypeError);;
   hwrite s);;;
  writeVariablesHeaderSection;;;
  writeComments;;;
  fixHeaderLength;;;
  flushHeader.

(** na_file_1010.py:41-52 [writeHeader]. *)
Definition writeHeader_1010 : L unit :=
  writeCommonHeader;;;
  (niv <- self_int kNIV;; l <- self_list kDX;;
   s <- liftL (fmt_dx_1010 niv l);; hwrap (lit "DX") s);;;
  (niv <- self_int kNIV;; l <- self_list kXNAME;;
   s <- liftL (fmt_lines niv l);; hwraps (lit "XNAME") s);;;
  writeVariablesHeaderSection;;;
  writeAuxVariablesHeaderSection;;;
  writeComments;;;
  fixHeaderLength;;;
  flushHeader.

(** na_file_1020.py:45-57 [writeHeader]. *)
Definition writeHeader_1020 : L unit :=
  writeCommonHeader;;;
  (niv <- self_int kNIV;; l <- self_list kDX;;
   s <- liftL (fmt_dx_1010 niv l);; hwrap (lit "DX") s);;;
  (v <- self kNVPM;; s <- liftL (fmt_s v);; hwrap (lit "NVPM") (s ++ nl));;;
  (niv <- self_int kNIV;; l <- self_list kXNAME;;
   s <- liftL (fmt_lines niv l);; hwrap (lit "XNAME") s);;;
  writeVariablesHeaderSection;;;
  writeAuxVariablesHeaderSection;;;
  writeComments;;;
  fixHeaderLength;;;
  flushHeader.

(** na_file_2010.py:54-85 [writeHeader] (also FFI 3010 and 4010). *)
Definition writeHeader_2010 : L unit :=
  writeCommonHeader;;;
  reverse_in_place kDX;;;
  (niv <- self_int kNIV;; l <- self_list kDX;;
   s <- liftL (fmt_sep (o_delim o) (niv - 1) l);; hwrap (lit "DX") s);;;
  reverse_in_place kNX;;;
  (niv <- self_int kNIV;; l <- self_list kNX;;
   s <- liftL (fmt_sep (o_delim o) (niv - 2) l);; hwrap (lit "NX") s);;;
  (niv <- self_int kNIV;; l <- self_list kNXDEF;;
   s <- liftL (fmt_sep (o_delim o) (niv - 2) (rev l));; hwrap (lit "NXDEF") s);;;
  (niv <- self_int kNIV;; nxdef <- self kNXDEF;; X <- self kX;;
   xl <- liftL (mapR (x_line o nxdef X) (range (niv - 1)));;
   forL (rev xl) (fun line => hwrap (lit "X") (lstrip line)));;;
  (niv <- self_int kNIV;; l <- self_list kXNAME;;
   s <- liftL (fmt_lines niv (rev l));; hwraps (lit "XNAME") s);;;
  writeVariablesHeaderSection;;;
  writeAuxVariablesHeaderSection;;;
  writeComments;;;
  fixHeaderLength;;;
  flushHeader.

(** na_file_2110.py:41-56 [writeHeader]. *)
Definition writeHeader_2110 : L unit :=
  writeCommonHeader;;;
  reverse_in_place kDX;;;
  (niv <- self_int kNIV;; l <- self_list kDX;;
   s <- liftL (fmt_sep (o_delim o) (niv - 1) l);; hwrap (lit "DX") s);;;
  reverse_in_place kXNAME;;;
  (niv <- self_int kNIV;; l <- self_list kXNAME;;
   s <- liftL (fmt_lines niv l);; hwraps (lit "XNAME") s);;;
  writeVariablesHeaderSection;;;
  writeAuxVariablesHeaderSection;;;
  writeComments;;;
  fixHeaderLength;;;
  flushHeader.

(** na_file_2160.py:43-63 [writeHeader].  The ignored header lines go directly
    to the file, before the header is built.  [if self.ignored_header_lines]
    is false for the empty list and None. *)
Definition writeHeader_2160 : L unit :=
  (ign <- self kIGN;;
   match ign with
   | PNone | PList [] => retL tt
   | PList l =>
       ss <- liftL (mapR (fun v => match v with PStr s => Ok s | _ => Err ETypeError end) l);;
       fwrite (join nl ss);;; fwrite nl
   | _ => liftL (Err EUnmodelled)
   end);;;
  writeCommonHeader;;;
  reverse_in_place kDX;;;
  (l <- self_list kDX;; s <- liftL (fmt_sep [] 0 l);; hwrap (lit "DX") s);;;
  (v <- self kLENX;; s <- liftL (fmt_s v);; hwrap (lit "LENX") (s ++ nl));;;
  reverse_in_place kXNAME;;;
  (niv <- self_int kNIV;; l <- self_list kXNAME;;
   s <- liftL (fmt_lines niv l);; hwraps (lit "XNAME") s);;;
  writeVariablesHeaderSection;;;
  writeAuxVariablesHeaderSection_2160;;;
  writeComments;;;
  fixHeaderLength;;;
  flushHeader.

(** na_file_2310.py:41-54 [writeHeader]. *)
Definition writeHeader_2310 : L unit :=
  writeCommonHeader;;;
  (v <- self kDX;; d <- liftL (index v 0);; s <- liftL (fmt_s d);; hwrap (lit "DX") (s ++ nl));;;
  reverse_in_place kXNAME;;;
  (niv <- self_int kNIV;; l <- self_list kXNAME;;
   s <- liftL (fmt_lines niv l);; hwraps (lit "XNAME") s);;;
  writeVariablesHeaderSection;;;
  writeAuxVariablesHeaderSection;;;
  writeComments;;;
  fixHeaderLength;;;
  flushHeader.

(** na_file_1001.py:84-96 [writeData].  The attributes used are not modified
    by the loop, so they are fetched where they are first used. *)
Definition writeData_1001 : L unit :=
  X <- self kX;; ms <- liftL (range_len X);;
  forL ms (fun m =>
    xs <- liftL (cat_items o [m] (fun m => index X m));;
    nv <- self_int kNV;; V <- self kV;;
    vs <- liftL (cat_items o (range nv) (fun n => index2 V n m));;
    write_data_line (xs ++ vs)).

(** The line with the independent variable mark and the auxiliary variables,
    na_file_1010.py:103-108 and the same code in the other classes. *)
Definition write_x_aux (x : Res pyv) (m : nat) : L unit :=
  xs <- liftL (cat_items o [tt] (fun _ => x));;
  nauxv <- self_int kNAUXV;; A <- self kA;;
  avs <- liftL (cat_items o (range nauxv) (fun a => index2 A a m));;
  write_data_line (xs ++ avs).

(** na_file_1010.py:96-115 [writeData]. *)
Definition writeData_1010 : L unit :=
  X <- self kX;; ms <- liftL (range_len X);;
  forL ms (fun m =>
    write_x_aux (index X m) m;;;
    nv <- self_int kNV;; V <- self kV;;
    vs <- liftL (cat_items o (range nv) (fun n => index2 V n m));;
    write_data_line vs).

(** na_file_1020.py:86-110 [writeData].  [var_ind = m*NVPM + p] is never
    negative because [p] ranges over [range(NVPM)]. *)
Definition writeData_1020 : L unit :=
  X <- self kX;; ms <- liftL (range_len X);;
  forL ms (fun m =>
    write_x_aux (index X m) m;;;
    nv <- self_int kNV;;
    forL (range nv) (fun n =>
      nvpm <- self_int kNVPM;; V <- self kV;;
      vs <- liftL (cat_items o (range nvpm)
                    (fun p => index2 V n (m * Z.to_nat nvpm + p)));;
      write_data_line vs)).

(** na_file_2010.py:130-150 [writeData] (also FFI 3010 and 4010).
    [self.NX.reverse()] undoes the reversal made by [writeHeader]. *)
Definition writeData_2010 : L unit :=
  reverse_in_place kNX;;;
  X <- self kX;; x0 <- liftL (index X 0);; ms <- liftL (range_len x0);;
  forL ms (fun m =>
    write_x_aux (index x0 m) m;;;
    nv <- self_int kNV;;
    forL (range nv) (fun n =>
      V <- self kV;; v <- liftL (index2 V n m);;
      nx <- self_list kNX;; dims <- liftL (ints_of nx);;
      outlines <- liftL (writeLines o v dims);;
      forL outlines (fun line => s <- wrapLine (lit "Data") line;; fwrite s))).

(** The inner block of na_file_2110.py:132-138 (and na_file_2160.py:152-158). *)
Definition write_inner_2110 (X : pyv) (m : nat) : L unit :=
  nxv <- self kNX;; nxm <- liftL (bindR (index nxv m) as_int);;
  forL (range nxm) (fun p =>
    xs <- liftL (cat_items o [p] (fun p => index3 X m 1 p));;
    nv <- self_int kNV;; V <- self kV;;
    vs <- liftL (cat_items o (range nv) (fun n => index3 V n m p));;
    write_data_line (xs ++ vs)).

(** na_file_2110.py:114-138 [writeData]. *)
Definition writeData_2110 : L unit :=
  X <- self kX;; ms <- liftL (range_len X);;
  forL ms (fun m =>
    write_x_aux (index2 X m 0) m;;;
    write_inner_2110 X m).

(** na_file_2160.py:129-158 [writeData]. *)
Definition writeData_2160 : L unit :=
  X <- self kX;; ms <- liftL (range_len X);;
  forL ms (fun m =>
    xs <- liftL (bindR (index2 X m 0) fmt_s);;
    write_data_line xs;;;
    na <- self_int kNAUXV;; nc <- self_int kNAUXC;; A <- self kA;;
    avs <- liftL (cat_items o (range (na - nc)) (fun a => index2 A a m));;
    write_data_line avs;;;
    forL (range nc) (fun a =>
      s <- liftL (bindR (index2 A (Z.to_nat (na - nc) + a) m) fmt_s);;
      write_data_line (s ++ o_delim o));;;
    write_inner_2110 X m).

(** na_file_2310.py:92-115 [writeData]: one line per mark, the values of all
    variables interleaved point by point. *)
Definition writeData_2310 : L unit :=
  X <- self kX;; ms <- liftL (range_len X);;
  forL ms (fun m =>
    write_x_aux (index2 X m 0) m;;;
    nxv <- self kNX;; nxm <- liftL (bindR (index nxv m) as_int);;
    nv <- (match range nxm with [] => retL 0%Z | _ => self_int kNV end);;
    V <- self kV;;
    vs <- liftL (cat_items o (flat_map (fun p => map (fun n => (p, n)) (range nv)) (range nxm))
                  (fun pn => index3 V (snd pn) m (fst pn)));;
    write_data_line vs).

Definition writeHeader (c : cls) : L unit :=
  match c with
  | C1001 => writeHeader_1001
  | C1010 => writeHeader_1010
  | C1020 => writeHeader_1020
  | C2010 | C3010 | C4010 => writeHeader_2010
  | C2110 => writeHeader_2110
  | C2160 => writeHeader_2160
  | C2310 => writeHeader_2310
  end.

Definition writeData (c : cls) : L unit :=
  match c with
  | C1001 => writeData_1001
  | C1010 => writeData_1010
  | C1020 => writeData_1020
  | C2010 | C3010 | C4010 => writeData_2010
  | C2110 => writeData_2110
  | C2160 => writeData_2160
  | C2310 => writeData_2310
  end.

(** na_file.py:117-125, the part of [write] after the checks: a fresh header
    buffer, header unless [no_header], then data. *)
Definition write_body (c : cls) (no_header : bool) : L unit :=
  (fun st => (Ok tt, mkL (l_calls st) [] (l_na st)));;;
  (if no_header then retL tt else writeHeader c);;;
  writeData c.

End Writer.
