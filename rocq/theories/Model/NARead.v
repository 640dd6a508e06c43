(** The reading side of the file classes: nappy/na_file/na_file.py and
    nappy/na_file/na_file_NNNN.py.  An exception ends the operation, so the
    reader returns either an exception or the new state. *)
From Coq Require Import List NArith ZArith Bool.
From Verif Require Import Py.Str Py.Res Py.Num Model.Dict Model.TextParser Model.CommonUtils.
Import ListNotations.

(** State while reading a header: lines not yet read and attributes set so
    far. *)
Record rst {num : Type} := mkR {
  r_lines : list str;
  r_na : na num
}.
Arguments rst : clear implicits.
Arguments mkR {num}. Arguments r_lines {num}. Arguments r_na {num}.

Definition R (num A : Type) := rst num -> Res (A * rst num).
Definition retR {num A} (a : A) : R num A := fun s => Ok (a, s).
Definition bindRd {num A B} (m : R num A) (f : A -> R num B) : R num B :=
  fun s => match m s with Ok (a, s') => f a s' | Err e => Err e end.
Definition liftR {num A} (r : Res A) : R num A :=
  fun s => match r with Ok a => Ok (a, s) | Err e => Err e end.

Declare Scope R_scope.
Delimit Scope R_scope with R.
Notation "x <- m ;; k" := (bindRd m (fun x => k))
  (at level 61, m at next level, right associativity) : R_scope.
Notation "m ;;; k" := (bindRd m (fun _ => k))
  (at level 61, right associativity) : R_scope.

Section Reader.
Context {num : Type} `{NumOps num}.
Local Notation pyv := (pyv num).
Local Notation R := (R num).
Open Scope R_scope.

(** [self.file.readline()]: the empty string at the end of the file. *)
Definition readline : R str := fun st =>
  match r_lines st with
  | [] => Ok ([], st)
  | l :: ls => Ok (l, mkR ls (r_na st))
  end.
(** [self.KEY = v]. *)
Definition set (k : key) (v : pyv) : R unit := fun st =>
  Ok (tt, mkR (r_lines st) (upd (r_na st) k v)).
(** [self.KEY]. *)
Definition get (k : key) : R pyv := fun st => Ok (attr (r_na st) k, st).
Definition get_int (k : key) : R Z := v <- get k;; liftR (as_int v).
Definition get_list (k : key) : R (list pyv) := v <- get k;; liftR (as_list v).

(** na_file.py:156-161 [_readLines]. *)
Fixpoint read_n_lines (n : nat) : R (list str) :=
  match n with
  | O => retR []
  | S n' => l <- readline;; ls <- read_n_lines n';; retR (strip l :: ls)
  end.
Definition readLines (nlines : Z) : R (list str) := read_n_lines (Z.to_nat nlines).

(** [readItemFromLine(self.file.readline(), t)] and the analogous calls. *)
Definition item_line (t : rttype) : R pyv :=
  l <- readline;; liftR (readItemFromLine l t).
Definition items_line (n : Z) (t : rttype) : R (list pyv) :=
  l <- readline;; liftR (readItemsFromLine l n t).
(** [readItemsFromLines(self._readLines(n), n, str)]. *)
Definition names (n : Z) : R (list pyv) :=
  ls <- readLines n;; liftR (readItemsFromLines ls).
(** [readItemsFromUnknownLines(self.file, n, t)] on the file handle. *)
Definition items_unknown (n : Z) (t : rttype) : R (list pyv) := fun st =>
  match readItemsFromUnknownLines EHang (r_lines st) n t with
  | Ok (items, rest) => Ok (items, mkR rest (r_na st))
  | Err e => Err e
  end.

(** na_file.py:188-189: the ignored header lines. *)
Fixpoint read_ignored (n : nat) : R (list pyv) :=
  match n with
  | O => retR []
  | S n' => v <- item_line TStr;; vs <- read_ignored n';; retR (v :: vs)
  end.

(** na_file.py:144-154 [_readTopLine].  [int(FFI/1000)] truncates; the division
    is exact enough for the FFI values that reach this point. *)
Definition readTopLine : R unit :=
  l <- items_line 2 TInt;;
  nlh <- liftR (nth_res l 0);; ffi <- liftR (nth_res l 1);;
  f <- liftR (as_int ffi);;
  set kNLHEAD nlh;;; set kFFI ffi;;; set kNIV (PInt (Z.quot f 1000)).

(** na_file.py:184-199 [_readCommonHeader]. *)
Definition readCommonHeader (ignore : Z) : R unit :=
  (vs <- read_ignored (Z.to_nat ignore);; set kIGN (PList vs));;;
  readTopLine;;;
  (v <- item_line TStr;; set kONAME v);;;
  (v <- item_line TStr;; set kORG v);;;
  (v <- item_line TStr;; set kSNAME v);;;
  (v <- item_line TStr;; set kMNAME v);;;
  (l <- items_line 2 TInt;; a <- liftR (nth_res l 0);; b <- liftR (nth_res l 1);;
   set kIVOL a;;; set kNVOL b);;;
  (l <- items_line 6 TInt;; set kDATE (PList (firstn 3 l));;; set kRDATE (PList (skipn 3 l)));;;
  (n <- get_int kNLHEAD;; set kNLHEAD (PInt (n + ignore))).

(** na_file.py:215-223 [_readVariablesHeaderSection]. *)
Definition readVariablesHeaderSection : R unit :=
  (v <- item_line TInt;; set kNV v);;;
  nv <- get_int kNV;;
  (l <- items_unknown nv TFloat;; set kVSCAL (PList l));;;
  (l <- items_unknown nv TFloat;; set kVMISS (PList l));;;
  (l <- names nv;; set kVNAME (PList l)).

(** na_file.py:235-244 [_readAuxVariablesHeaderSection]. *)
Definition readAuxVariablesHeaderSection : R unit :=
  (v <- item_line TInt;; set kNAUXV v);;;
  na <- get_int kNAUXV;;
  if (0 <? na)%Z then
    (l <- items_unknown na TFloat;; set kASCAL (PList l));;;
    (l <- items_unknown na TFloat;; set kAMISS (PList l));;;
    (l <- names na;; set kANAME (PList l))
  else retR tt.

(** na_file.py:260-275 [_readCharAuxVariablesHeaderSection]. *)
Definition readCharAuxVariablesHeaderSection : R unit :=
  (v <- item_line TInt;; set kNAUXV v);;;
  (v <- item_line TInt;; set kNAUXC v);;;
  na <- get_int kNAUXV;; nc <- get_int kNAUXC;;
  if (0 <? na)%Z then
    (l <- items_unknown (na - nc) TFloat;; set kASCAL (PList l));;;
    (l <- items_unknown (na - nc) TFloat;; set kAMISS (PList l));;;
    (l <- items_unknown nc TInt;;
     set kLENA (PList (repeat PNone (Z.to_nat (na - nc)) ++ l)));;;
    (a <- get_list kAMISS;; l <- items_unknown nc TStr;; set kAMISS (PList (a ++ l)));;;
    (l <- names na;; set kANAME (PList l))
  else retR tt.

(** na_file.py:277-285, 310-326 [_readComments]. *)
Definition readComments : R unit :=
  (v <- item_line TInt;; set kNSCOML v);;;
  (n <- get_int kNSCOML;; l <- readLines n;; set kSCOM (PList (map PStr l)));;;
  (v <- item_line TInt;; set kNNCOML v);;;
  (n <- get_int kNNCOML;; l <- readLines n;; set kNCOM (PList (map PStr l))).

(** na_file_1001.py:30-38 [readHeader]. *)
Definition readHeader_1001 (ignore : Z) : R unit :=
  readCommonHeader ignore;;;
  niv <- get_int kNIV;;
  (l <- items_line niv TFloat;; set kDX (PList l));;;
  (l <- names niv;; set kXNAME (PList l));;;
  readVariablesHeaderSection;;;
  readComments.

(** na_file_1010.py:30-39 [readHeader]. *)
Definition readHeader_1010 (ignore : Z) : R unit :=
  readCommonHeader ignore;;;
  niv <- get_int kNIV;;
  (l <- items_line niv TFloat;; set kDX (PList l));;;
  (l <- names niv;; set kXNAME (PList l));;;
  readVariablesHeaderSection;;;
  readAuxVariablesHeaderSection;;;
  readComments.

(** na_file_1020.py:29-43 [readHeader].  [self.DX == 0] compares a list with a
    number and is never true. *)
Definition readHeader_1020 (ignore : Z) : R unit :=
  readCommonHeader ignore;;;
  niv <- get_int kNIV;;
  (l <- items_line niv TFloat;; set kDX (PList l));;;
  (v <- item_line TInt;; set kNVPM v);;;
  (l <- names niv;; set kXNAME (PList l));;;
  readVariablesHeaderSection;;;
  readAuxVariablesHeaderSection;;;
  readComments.

(** na_file_2010.py:43-44: one call per bounded axis, in file order, with the
    counts of the (already reversed) NXDEF. *)
Fixpoint read_axes (nxdef : list pyv) : R (list pyv) :=
  match nxdef with
  | [] => retR []
  | n :: rest =>
      k <- liftR (as_int n);;
      l <- items_unknown k TFloat;;
      ls <- read_axes rest;; retR (PList l :: ls)
  end.

(** na_file_2010.py:30-52 [readHeader] (also FFI 3010 and 4010).
    [readItemsFromLine] has checked that NXDEF has NIV-1 entries. *)
Definition readHeader_2010 (ignore : Z) : R unit :=
  readCommonHeader ignore;;;
  niv <- get_int kNIV;;
  (l <- items_line niv TFloat;; set kDX (PList (rev l)));;;
  (l <- items_line (niv - 1) TInt;; set kNX (PList (rev l)));;;
  (l <- items_line (niv - 1) TInt;; set kNXDEF (PList (rev l)));;;
  (nxdef <- get_list kNXDEF;; ls <- read_axes (firstn (Z.to_nat (niv - 1)) nxdef);;
   set kX (PList (PList [] :: rev ls)));;;
  (l <- names niv;; set kXNAME (PList (rev l)));;;
  readVariablesHeaderSection;;;
  readAuxVariablesHeaderSection;;;
  readComments.

(** na_file_2110.py:28-39 [readHeader]. *)
Definition readHeader_2110 (ignore : Z) : R unit :=
  readCommonHeader ignore;;;
  niv <- get_int kNIV;;
  (l <- items_line niv TFloat;; set kDX (PList (rev l)));;;
  (l <- names niv;; set kXNAME (PList (rev l)));;;
  readVariablesHeaderSection;;;
  readAuxVariablesHeaderSection;;;
  readComments.

(** na_file_2160.py:28-41 [readHeader]. *)
Definition readHeader_2160 (ignore : Z) : R unit :=
  readCommonHeader ignore;;;
  niv <- get_int kNIV;;
  (l <- items_line 1 TFloat;; set kDX (PList l));;;
  (v <- item_line TFloat;; set kLENX v);;;
  (l <- names niv;; set kXNAME (PList (rev l)));;;
  readVariablesHeaderSection;;;
  readCharAuxVariablesHeaderSection;;;
  readComments.

(** na_file_2310.py:28-39 [readHeader]. *)
Definition readHeader_2310 (ignore : Z) : R unit :=
  readCommonHeader ignore;;;
  niv <- get_int kNIV;;
  (l <- items_line 1 TFloat;; set kDX (PList l));;;
  (l <- names niv;; set kXNAME (PList (rev l)));;;
  readVariablesHeaderSection;;;
  readAuxVariablesHeaderSection;;;
  readComments.

Definition readHeader (c : cls) (ignore : Z) : R unit :=
  match c with
  | C1001 => readHeader_1001 ignore
  | C1010 => readHeader_1010 ignore
  | C1020 => readHeader_1020 ignore
  | C2010 | C3010 | C4010 => readHeader_2010 ignore
  | C2110 => readHeader_2110 ignore
  | C2160 => readHeader_2160 ignore
  | C2310 => readHeader_2310 ignore
  end.

(** Attributes of a new object opened for reading: all None except
    [ignored_header_lines] (na_file.py:67, na_core.py:41). *)
Definition na_new : na num := upd na_empty kIGN (PList []).

(** nappy_api.py:openNAFile in read mode: class lookup by the FFI of the top
    line, then [NAFile.__init__] reads the header (na_file.py:71-73).
    [content] is the text of the file. *)
Definition openNAFile_r (content : str) (ignore : Z) : Res (cls * na num) :=
  (do ffi <- readFFI (num:=num) content ignore;
   do c <- getNAFileClass ffi;
   do r <- readHeader c ignore (mkR (readlines content) na_new);
   Ok (c, r_na (snd r)))%res.

(** na_file.py:163-181 [_checkForBlankLines]. *)
Fixpoint checkForBlankLines (empties : bool) (datalines : list str) : Res (list str) :=
  match datalines with
  | [] => Ok []
  | l :: rest =>
      if is_nil (strip l) then checkForBlankLines true rest
      else if empties then Err (ENappy E_EmptyLine)
      else bindR (checkForBlankLines empties rest) (fun r => Ok (l :: r))
  end.

(** The attributes that [readData] works on. *)
Record dst := mkD {
  d_X : list pyv;
  d_V : list pyv;
  d_A : list pyv;
  d_NX : list pyv;
  d_DX : list pyv
}.
Definition set_X (s : dst) x := mkD x (d_V s) (d_A s) (d_NX s) (d_DX s).
Definition set_V (s : dst) v := mkD (d_X s) v (d_A s) (d_NX s) (d_DX s).
Definition set_A (s : dst) a := mkD (d_X s) (d_V s) a (d_NX s) (d_DX s).
Definition set_NX (s : dst) n := mkD (d_X s) (d_V s) (d_A s) n (d_DX s).
Definition set_DX (s : dst) d := mkD (d_X s) (d_V s) (d_A s) (d_NX s) d.

(** Header values used while reading data: [self.NV], [self.NAUXV], ... of the
    object; [arraySize] of FFI 2010. *)
Section Data.
Variable h : na num.
Open Scope res_scope.

Definition h_int (k : key) : Res Z := as_int (attr h k).
Definition h_list (k : key) : Res (list pyv) := as_list (attr h k).
(** an attribute that must be a list (it is appended to). *)
Definition h_mut (k : key) : Res (list pyv) :=
  match attr h k with PList l => Ok l | _ => Err EAttributeError end.

Definition empties (z : Z) : list pyv := repeat (PList []) (Z.to_nat z).

(** [for n in range(N): L[n].append(v[count]); count = count + 1]. *)
Definition append_each (N : Z) (v : list pyv) (L : list pyv) : Res (list pyv) :=
  forR (range N) (fun n L => do x <- nth_res v n; modify_nth L n (app_item x)) L.

Definition items_from (ls : list str) (n : Z) (t : rttype) : Res (list pyv * list str) :=
  readItemsFromUnknownLines EIndexError ls n t.

Definition D := list str -> nat -> dst -> Res (dst * list str).

(** na_file_1001.py:54-62 [_setupArrays]. *)
Definition setup_1001 : Res dst :=
  do nv <- h_int kNV; Ok (mkD [] (empties nv) [] [] []).

(** na_file_1001.py:64-76 [_readData1]. *)
Definition readData1_1001 : D := fun ls m s =>
  do nv <- h_int kNV;
  do r <- items_from ls (1 + nv) TFloat;
  let (xv, rest) := r in
  do x <- nth_res xv 0;
  do V' <- append_each nv (skipn 1 xv) (d_V s);
  Ok (set_V (set_X s (d_X s ++ [x])) V', rest).

(** na_file_1001.py:78-82 [_readData2]. *)
Definition readData2_1001 : D := fun ls m s => Ok (s, ls).

(** na_file_1010.py:54-65 [_setupArrays] (also FFI 1020). *)
Definition setup_1010 : Res dst :=
  do nv <- h_int kNV; do na <- h_int kNAUXV;
  Ok (mkD [] (empties nv) (empties na) [] []).

(** na_file_1010.py:67-80 [_readData1] (also FFI 1020). *)
Definition readData1_1010 : D := fun ls m s =>
  do na <- h_int kNAUXV;
  do r <- items_from ls (1 + na) TFloat;
  let (xa, rest) := r in
  do x <- nth_res xa 0;
  do A' <- append_each na (skipn 1 xa) (d_A s);
  Ok (set_A (set_X s (d_X s ++ [x])) A', rest).

(** na_file_1010.py:82-94 [_readData2]. *)
Definition readData2_1010 : D := fun ls m s =>
  do nv <- h_int kNV;
  do r <- items_from ls nv TFloat;
  let (v, rest) := r in
  do V' <- append_each nv v (d_V s);
  Ok (set_V s V', rest).

(** na_file_1020.py:59-70 [_readData2]: [count] runs over n*NVPM + i. *)
Definition readData2_1020 : D := fun ls m s =>
  do nv <- h_int kNV; do nvpm <- h_int kNVPM;
  do r <- items_from ls (nv * nvpm) TFloat;
  let (v, rest) := r in
  do V' <- forR (range nv) (fun n L =>
             forR (range nvpm) (fun i L =>
               do x <- nth_res v (n * Z.to_nat nvpm + i); modify_nth L n (app_item x)) L)
             (d_V s);
  Ok (set_V s V', rest).

(** na_file_2010.py:96-98: [arraySize]. *)
Definition arraySize (nx : list Z) : Z := fold_left Z.mul nx 1%Z.

(** na_file_2010.py:88-102 [_setupArrays].  X is not reset: it keeps the value
    it has. *)
Definition setup_2010 : Res dst :=
  do nx <- h_list kNX; do _ <- mapR as_int nx;
  do nv <- h_int kNV; do na <- h_int kNAUXV; do X <- h_mut kX;
  Ok (mkD X (empties nv) (empties na) nx []).

(** na_file_2010.py:104-116 [_readData1]. *)
Definition readData1_2010 : D := fun ls m s =>
  do na <- h_int kNAUXV;
  do r <- items_from ls (1 + na) TFloat;
  let (xa, rest) := r in
  do x <- nth_res xa 0;
  do X' <- modify_nth (d_X s) 0 (app_item x);
  do A' <- append_each na (skipn 1 xa) (d_A s);
  Ok (set_A (set_X s X') A', rest).

(** list_manipulator.py:65-85 [populator] (through [recursiveListPopulator]):
    fills an empty list; [cnt] is [self._counter].  A negative dimension moves
    the counter back; array indices below are then negative, which Python
    resolves from the end; such dimensions never reach this code because
    [arraySize] items were read (simplification: counter kept as Z, negative
    index raises IndexError). *)
Fixpoint populator (array : list pyv) (dimlist : list Z) (cnt : Z) : Res (list pyv * Z) :=
  match dimlist with
  | [] => Err EIndexError
  | [d] =>
      do vs <- mapR (fun i => if (cnt + Z.of_nat i <? 0)%Z then Err EIndexError
                              else nth_res array (Z.to_nat (cnt + Z.of_nat i))) (range d);
      Ok (vs, (cnt + d)%Z)
  | d :: rest =>
      forR (range d) (fun _ (acc : list pyv * Z) =>
          do r <- populator array rest (snd acc);
          Ok (fst acc ++ [PList (fst r)], snd r)) ([], cnt)
  end.

(** na_file_2010.py:118-128 [_readData2].  With NV <= 0 the local [rtlines] is
    never assigned. *)
Definition readData2_2010 : D := fun ls m s =>
  do nv <- h_int kNV; do nx <- mapR as_int (d_NX s);
  if (nv <=? 0)%Z then Err EUnboundLocal
  else
  do r <- forR (range nv) (fun n (acc : list pyv * list str) =>
      do r <- items_from (snd acc) (arraySize nx) TFloat;
      let (v, rest) := r in
      do V1 <- modify_nth (fst acc) n (app_item (PList []));
      do p <- populator v nx 0%Z;
      do V2 <- modify_nth V1 n (fun vn => modify_in vn m (fun old =>
                 match old with PList l => Ok (PList (l ++ fst p)) | _ => Err EAttributeError end));
      Ok (V2, rest)) (d_V s, ls);
  Ok (set_V s (fst r), snd r).

(** na_file_2110.py:59-71 [_setupArrays]; na_file_2160.py:84-96 is the same,
    and FFI 2310 inherits it. DX is kept (2310 appends to it). *)
Definition setup_2110 : Res dst :=
  do nv <- h_int kNV; do na <- h_int kNAUXV; do dx <- h_list kDX;
  Ok (mkD [] (empties nv) (empties na) [] dx).

(** [int(x)] of a number that was read. *)
Definition int_of (v : pyv) : Res Z :=
  match v with
  | PNum x => match num_trunc x with Some z => Ok z | None => Err EValueError end
  | PInt z => Ok z
  | _ => Err ETypeError
  end.

(** na_file_2110.py:73-91 [_readData1]. *)
Definition readData1_2110 : D := fun ls m s =>
  do na <- h_int kNAUXV;
  do r <- items_from ls (na + 1) TFloat;
  let (xa, rest) := r in
  do x <- nth_res xa 0;
  do A' <- append_each na (skipn 1 xa) (d_A s);
  do a0 <- nth_res (skipn 1 xa) 0; do nx <- int_of a0;
  Ok (set_NX (set_A (set_X s (d_X s ++ [PList [x; PList []]])) A') (d_NX s ++ [PInt nx]), rest).

(** na_file_2110.py:93-112 [_readData2] (also FFI 2160). *)
Definition readData2_2110 : D := fun ls m s =>
  do nv <- h_int kNV;
  do V0 <- forR (range nv) (fun n V => modify_nth V n (app_item (PList []))) (d_V s);
  do nxv <- nth_res (d_NX s) m; do nxm <- as_int nxv;
  do r <- forR (range nxm) (fun _ (acc : list pyv * list pyv * list str) =>
      let '(X, V, ls) := acc in
      do r <- items_from ls (nv + 1) TFloat;
      let (xv, rest) := r in
      do x <- nth_res xv 0;
      do X' <- modify_nth X m (fun xm => modify_in xm 1 (app_item x));
      do V' <- forR (range nv) (fun n V =>
                 do y <- nth_res (skipn 1 xv) n;
                 modify_nth V n (fun vn => modify_in vn m (app_item y))) V;
      Ok (X', V', rest)) (d_X s, V0, ls);
  let '(X, V, rest) := r in
  Ok (set_V (set_X s X) V, rest).

(** na_file_2160.py:98-127 [_readData1].  A missing line for a character
    auxiliary variable makes [auxc[count]] raise IndexError. *)
Definition readData1_2160 : D := fun ls m s =>
  do na <- h_int kNAUXV; do nc <- h_int kNAUXC;
  do r1 <- items_from ls 1 TStr;
  let (x1, ls1) := r1 in
  do x <- nth_res x1 0;
  do r2 <- items_from ls1 (na - nc) TFloat;
  let (aux, ls2) := r2 in
  do a0 <- nth_res aux 0; do nx <- int_of a0;
  do A1 <- append_each (na - nc) aux (d_A s);
  do auxc <- readItemsFromLines (num:=num) (slice_to ls2 nc);
  do A2 <- forR (range nc) (fun a L =>
             do y <- nth_res auxc a;
             if (na - nc + Z.of_nat a <? 0)%Z then Err EUnmodelled
             else modify_nth L (Z.to_nat (na - nc) + a) (app_item y)) A1;
  Ok (set_NX (set_A (set_X s (d_X s ++ [PList [x; PList []]])) A2) (d_NX s ++ [PInt nx]),
      slice_from ls2 nc).

(** na_file_2310.py:56-76 [_readData1]. *)
Definition readData1_2310 : D := fun ls m s =>
  do na <- h_int kNAUXV;
  do r <- items_from ls (na + 1) TFloat;
  let (xa, rest) := r in
  do x <- nth_res xa 0;
  let aux := skipn 1 xa in
  do A' <- append_each na aux (d_A s);
  do a1 <- nth_res aux 1;
  do a0 <- nth_res aux 0; do nx <- int_of a0;
  do a2 <- nth_res aux 2; do dx <- int_of a2;
  Ok (set_DX (set_NX (set_A (set_X s (d_X s ++ [PList [x; PList [a1]]])) A')
        (d_NX s ++ [PInt nx])) (d_DX s ++ [PInt dx]), rest).

(** na_file_2310.py:78-90 [_readData2]: variable by variable. *)
Definition readData2_2310 : D := fun ls m s =>
  do nv <- h_int kNV;
  do nxv <- nth_res (d_NX s) m; do nxm <- as_int nxv;
  do r <- items_from ls (nv * nxm) TFloat;
  let (v, rest) := r in
  do V' <- forR (range nv) (fun n V =>
      do V1 <- modify_nth V n (app_item (PList []));
      forR (range nxm) (fun i V =>
        do y <- nth_res v (n * Z.to_nat nxm + i);
        modify_nth V n (fun vn => modify_in vn m (app_item y))) V1) (d_V s);
  Ok (set_V s V', rest).

Definition setupArrays (c : cls) : Res dst :=
  match c with
  | C1001 => setup_1001
  | C1010 | C1020 => setup_1010
  | C2010 | C3010 | C4010 => setup_2010
  | C2110 | C2160 | C2310 => setup_2110
  end.
Definition readData1 (c : cls) : D :=
  match c with
  | C1001 => readData1_1001
  | C1010 | C1020 => readData1_1010
  | C2010 | C3010 | C4010 => readData1_2010
  | C2110 => readData1_2110
  | C2160 => readData1_2160
  | C2310 => readData1_2310
  end.
Definition readData2 (c : cls) : D :=
  match c with
  | C1001 => readData2_1001
  | C1010 => readData2_1010
  | C1020 => readData2_1020
  | C2010 | C3010 | C4010 => readData2_2010
  | C2110 | C2160 => readData2_2110
  | C2310 => readData2_2310
  end.

(** na_file.py:343-348: the loop of [readData].  [fuel] bounds the number of
    iterations; [EHang] is returned when it runs out (it never does when the
    fuel is the number of lines, theorem C26). *)
Fixpoint data_loop (c : cls) (fuel : nat) (ls : list str) (m : nat) (s : dst) : Res dst :=
  match ls with
  | [] => Ok s
  | _ :: _ =>
      match fuel with
      | O => Err EHang
      | S fuel' =>
          do r1 <- readData1 c ls m s;
          do r2 <- readData2 c (snd r1) m (fst r1);
          data_loop c fuel' (snd r2) (S m) (fst r2)
      end
  end.

(** Attributes after [readData]. *)
Definition store (c : cls) (s : dst) : na num :=
  let h1 := upd (upd h kX (PList (d_X s))) kV (PList (d_V s)) in
  match c with
  | C1001 => h1
  | C1010 | C1020 | C2010 | C3010 | C4010 => upd h1 kA (PList (d_A s))
  | C2110 | C2160 => upd (upd h1 kA (PList (d_A s))) kNX (PList (d_NX s))
  | C2310 => upd (upd (upd h1 kA (PList (d_A s))) kNX (PList (d_NX s))) kDX (PList (d_DX s))
  end.

(** na_file.py:328-348 [readData]. *)
Definition readData (c : cls) (content : str) : Res (na num) :=
  do s0 <- setupArrays c;
  do nlh <- h_int kNLHEAD;
  let datalines := slice_from (readlines content) nlh in
  do ls <- checkForBlankLines false datalines;
  do s <- data_loop c (length ls) ls 0 s0;
  Ok (store c s).

End Data.

(** [f = openNAFile(name); f.readData(); f.getNADict()]: the dictionary view
    (na_core.py:96-110 drops the None entries, which are absent in [na]). *)
Definition read_file (content : str) (ignore : Z) : Res (cls * na num) :=
  (do r <- openNAFile_r content ignore;
   do d <- readData (snd r) (fst r) content;
   Ok (fst r, d))%res.

End Reader.
