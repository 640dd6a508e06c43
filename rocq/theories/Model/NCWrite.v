(** nappy/nc_interface/xarray_to_na.py, the second half: from converted
    dictionaries to files ([constructNAFileNames], [writeNAFiles] and its
    helpers), with [openNAFile] in write mode.

    Simplifications: log and output messages are left out; a dictionary has only
    the recognised keys; the disk never fails; arrays are lists. *)
From Coq Require Import List NArith ZArith Bool.
From Verif Require Import Py.Str Py.Res Py.Num Model.Dict Model.TextParser Model.CommonUtils Model.NAWrite Model.NACore
  Model.Utils.
Import ListNotations.

(** config/nappy.ini:11-22, section header_partitions. *)
Definition hp_sc_start : str := lit "==== Special Comments follow ====".
Definition hp_sc_end : str := lit "==== Special Comments end ====".
Definition hp_nc_start : str := lit "==== Normal Comments follow ====".
Definition hp_nc_end : str := lit "==== Normal Comments end ====".
Definition hp_data_next : str := lit "=== Data Section begins on the next line ===".
Definition hp_sing_start : str := lit "== Singleton Variables defined in the source file follow ==".
Definition hp_sing_end : str := lit "== Singleton Variables defined in the source file end ==".
Definition hp_ncatts_start : str := lit "== Variable attributes from source (NetCDF) file follow ==".
Definition hp_ncatts_end : str := lit "== Variable attributes from source (NetCDF) file end ==".
Definition hp_addl_globals : str := lit "=== Additional Global Attributes defined in the source file ===".
Definition hp_addl_vatts : str := lit "=== Additional Variable Attributes defined in the source file ===".

(** ** Names *)
(** xarray_to_na.py:214-227 [constructNAFileNames] for a given [na_file]; [n] is
    [len(self.na_dict_list)]. *)
Definition constructNAFileNames (na_file : str) (n : nat) : list str :=
  let name_parts := split_chr c_dot na_file in
  if (n =? 1)%nat then [na_file]
  else map (fun file_counter =>
              join [c_dot] (removelast name_parts) ++ ([c_us] ++ dec_of_nat file_counter) ++ [c_dot] ++ last name_parts [])
           (seq 1 n).
(** xarray_to_na.py:207-212: the name when none is given. *)
Definition default_na_file (nc_file : str) : str :=
  let base_name := if str_eqb (slice_from nc_file (-3)%Z) (lit ".nc") then slice_to nc_file (-3)%Z else nc_file in
  base_name ++ lit ".na".

(** [f"{z:03d}"]: padded with zeros to three characters, after the sign. *)
Definition zeros (n : nat) : str := repeat 48%N n.
Definition pad3 (z : Z) : str :=
  match z with
  | Zneg p => let s := dec_of_N (Npos p) in c_minus :: zeros (2 - length s) ++ s
  | _ => let s := dec_of_Z z in zeros (3 - length s) ++ s
  end.

(** ** Comments *)
Inductive rule := RReplace | RInsert | RExtend | ROther.

Section Write.
Context {num : Type} `{NumOps num}.
Local Notation pyv := (pyv num).
Local Notation na := (na num).

(** [v[0] == line], for a non-empty list. *)
Definition is_line (line : str) (v : pyv) : bool := match v with PStr s => str_eqb s line | _ => false end.
Definition last_res {A} (l : list A) : Res A :=
  match rev l with [] => Err EIndexError | x :: _ => Ok x end.

(** xarray_to_na.py:455-506 [_cleanWrapComments] for two lists.  [start_line]
    and [end_line] are the lines for [key[0]]; [ncom] says [key == "NCOM"]. *)
Definition cleanWrapComments (existing new : list pyv) (ncom : bool) (r : rule) : Res (list pyv) :=
  let start_line := if ncom then hp_nc_start else hp_sc_start in
  let end_line := if ncom then hp_nc_end else hp_sc_end in
  (match existing, new with
   | [], _ => Ok new
   | _, [] => Ok existing
   | e0 :: rest, _ =>
       let start_used := is_line start_line e0 in
       let existing := if start_used then rest else existing in
       do e1 <- last_res existing;
       let end_used := is_line end_line e1 in
       let existing := if end_used then removelast existing else existing in
       do p <- (if negb end_used && ncom then
                  do e2 <- last_res existing;
                  if is_line hp_data_next e2 then Ok (removelast existing, [PStr hp_data_next]) else Ok (existing, [])
                else Ok (existing, if end_used then [PStr end_line] else []));
       let (existing, tail) := p in
       let combined := match r with RInsert => new ++ existing | _ => existing ++ new end in
       Ok ((if start_used then [PStr start_line] else []) ++ combined ++ tail)
   end)%res.

(** [new_item[:]]: a list or a string, else a TypeError. *)
Definition copied (v : pyv) : Res pyv :=
  match v with PList _ | PStr _ => Ok v | _ => Err ETypeError end.
(** [_cleanWrapComments] for a list or a string each: one that is empty or None
    gives the other; a character is never a start or end line, so two strings
    are put together; a list and a string cannot be added.  Simplification: a
    number in the place of the existing comments is not modelled. *)
Definition wrapped (existing new : pyv) (ncom : bool) (r : rule) : Res pyv :=
  match existing, new with
  | PNone, _ | PList [], _ | PStr [], _ => Ok new
  | PList _, PList [] | PList _, PStr [] | PStr _, PList [] | PStr _, PStr [] => Ok existing
  | PList e, PList n => do l <- cleanWrapComments e n ncom r; Ok (PList l)
  | PStr e, PStr n => Ok (PStr (match r with RInsert => n ++ e | _ => e ++ n end))
  | PList e, PStr n => do l <- cleanWrapComments e [PStr n] ncom r; Err ETypeError
  | PStr e, PList n => Err ETypeError
  | _, _ => Err EUnmodelled
  end%res.

(** [v.split()] of a string. *)
Definition split_words (v : pyv) : Res (list pyv) :=
  match v with PStr s => Ok (map PStr (split_ws s)) | _ => Err EAttributeError end.
Definition to_int (v : pyv) : Res pyv :=
  match v with PStr s => match int_of_str s with Some z => Ok (PInt z) | None => Err EValueError end | _ => Err ETypeError end.

(** xarray_to_na.py:41-43, permitted_overwrite_metadata. *)
Definition permitted : list key := [kDATE; kRDATE; kANAME; kMNAME; kONAME; kORG; kSNAME; kVNAME; kSCOM; kNCOM].
Definition key_in (k : key) (l : list key) : bool := existsb (key_beq k) l.

(** xarray_to_na.py:273-305: one item of [overriders].  An item that equals the
    new one is kept (line 300).  Simplification: of two that are equal the new one
    is taken; a date that is a numpy array is in [Model/NumpyDate]. *)
Definition override (r : rule) (d : na) (p : key * pyv) : Res na :=
  let (k, v) := p in
  (if negb (key_in k permitted) then Ok d
   else
     do new_item <-
       (if key_in k [kDATE; kRDATE; kANAME; kVNAME] then
          do ws <- split_words v;
          if key_in k [kDATE; kRDATE] then do l <- mapR to_int ws; Ok (PList l) else Ok (PList ws)
        else Ok v);
     match k with
     | kSCOM | kNCOM =>
         do comments <-
           (match r with
            | RReplace => copied new_item
            | RInsert | RExtend =>
                do new_comments <- copied new_item;
                wrapped (match d k with Some e => e | None => PList [] end) new_comments (key_beq k kNCOM) r
            | ROther => Err (ENappy E_Other)
            end);
         do l <- as_list comments;
         Ok (upd (upd d k comments) (if key_beq k kSCOM then kNSCOML else kNNCOML)
               (PInt (Z.of_nat (length l))))
     | _ => Ok (upd d k new_item)
     end)%res.

(** xarray_to_na.py:422-453 [_updateWithColumnHeaders]. *)
Definition get (d : na) (k : key) : Res pyv := of_opt EKeyError (d k).
Definition updateWithColumnHeaders (d : na) : Res na :=
  (do ffi <- get d kFFI;
   do compatible <-
     (match ffi with
      | PInt z => if existsb (Z.eqb z) [1001; 1010; 2110]%Z
                  then do nauxv <- get d kNAUXV; do n <- as_int nauxv; Ok (negb (0 <? n)%Z)
                  else Ok false
      | _ => Ok false
      end);
   if compatible then
     do first <-
       (match ffi with
        | PInt 1010 => Ok []
        | _ => do xname <- get d kXNAME; do x <- index xname 0; do s <- as_str x; Ok [s]
        end);
     do vname <- get d kVNAME; do names <- as_list vname; do ss <- mapR as_str names;
     do ncom <- get d kNCOM;
     do ncom' <- app_item (PStr (join [c_comma] (first ++ ss))) ncom;
     do l <- as_list ncom';
     Ok (upd (upd d kNCOM ncom') kNNCOML (PInt (Z.of_nat (length l))))
   else Ok d)%res.

(** ** Files *)
(** The files on disk: name and content, in order of creation. *)
Definition disk := list (str * str).

(** nappy_api.py:157-166 [openNAFile] with mode w: the class, and the dictionary
    with FFI set if it was missing or no integer. *)
Definition openNAFile_w (d : na) : Res (cls * na) :=
  (match d kFFI with
   | Some (PInt z) => do c <- getNAFileClass z; Ok (c, d)
   | _ => do z <- chooseFFI d; do c <- getNAFileClass z; Ok (c, upd d kFFI (PInt z))
   end)%res.
(** [x = openNAFile(name, 'w', d); x.write(...); x.close()].  Opening creates the
    file or empties it.  (After an exception in [write] the object is deleted,
    which closes the file, na_file.py:87-88.) *)
Definition put_file (o : opts num) (no_header : bool) (name : str) (d : na) (fs : disk) : Res unit * disk :=
  match openNAFile_w d with
  | Err e => (Err e, fs)
  | Ok (c, d') =>
      let (r, st) := write_body o c no_header (mkW [] [] d') in
      (r, sd_set fs name (w_file st))
  end.

(** [v[start:end]]. *)
Definition slice_v (v : pyv) (a b : Z) : Res pyv :=
  match v with
  | PList l => Ok (PList (slice l a b))
  | PStr s => Ok (PStr (slice s a b))
  | _ => Err ETypeError
  end.
(** [len(v)]. *)
Definition len_v (v : pyv) : Res Z := bindR (as_list v) (fun l => Ok (Z.of_nat (length l))).

(** xarray_to_na.py:404. *)
Definition chunk_name (file_name : str) (ivol : Z) : str :=
  slice_to file_name (-3)%Z ++ [c_minus] ++ pad3 ivol ++ lit ".na".

(** xarray_to_na.py:388-418, the loop.  Every name is appended twice (lines 405
    and 418).  Simplification: the dictionary is the same in every round; the
    writer of FFI 1001 changes no list that it shares with it. *)
Fixpoint subsets_loop (fuel : nat) (o : opts num) (d : na) (file_name : str) (var_list : list pyv)
    (size_limit array_length nvol start ivol : Z) (names : list str) (fs : disk) : Res (list str) * disk :=
  match fuel with
  | O => (Err EHang, fs)
  | S fuel' =>
      if (start <? array_length)%Z then
        let ivol := (ivol + 1)%Z in
        let stop := (if (start + size_limit >? array_length)%Z then array_length else start + size_limit)%Z in
        match bindR (mapR (fun v => slice_v v start stop) var_list)
                    (fun block => modifyNADictCopy d (PList block) start stop ivol nvol) with
        | Err e => (Err e, fs)
        | Ok d' =>
            let name := chunk_name file_name ivol in
            match put_file o false name d' fs with
            | (Err e, fs') => (Err e, fs')
            | (Ok _, fs') => subsets_loop fuel' o d file_name var_list size_limit array_length nvol stop ivol
                               (names ++ [name; name]) fs'
            end
        end
      else (Ok names, fs)
  end.
(** xarray_to_na.py:367-420 [_writeNAFileSubsetsWithinSizeLimit]. *)
Definition writeNAFileSubsets (fuel : nat) (o : opts num) (d : na) (file_name : str) (size_limit : Z) (fs : disk)
  : Res (list str) * disk :=
  match (do v <- get d kV; do var_list <- as_list v; do v0 <- nth_res var_list 0; do n <- len_v v0; Ok (var_list, n))%res with
  | Err e => (Err e, fs)
  | Ok (var_list, array_length) =>
      if (size_limit =? 0)%Z then (Err EZeroDivision, fs)
      else
        let nvol := (array_length / size_limit + (if 0 <? array_length mod size_limit then 1 else 0))%Z in
        subsets_loop fuel o d file_name var_list size_limit array_length nvol 0 0 [] fs
  end.

(** xarray_to_na.py:262-347: one dictionary of [self.na_dict_list].  The
    dictionary itself is modified by the overriders and the column headers. *)
Record settings := mkSettings {
  st_rule : rule;               (* comment_override_rule *)
  st_headers : bool;            (* add_column_headers *)
  st_overriders : list (key * pyv)
}.
Definition prepare (s : settings) (d : na) : Res na :=
  (do d1 <- forR (st_overriders s) (fun p d => override (st_rule s) d p) d;
   if st_headers s then updateWithColumnHeaders d1 else Ok d1)%res.
(** xarray_to_na.py:313-327. *)
Definition write_one (fuel : nat) (o : opts num) (no_header : bool) (size_limit : option Z) (file_name : str) (d : na)
    (fs : disk) : Res (list str) * disk :=
  let whole := match put_file o no_header file_name d fs with
               | (Err e, fs') => (Err e, fs')
               | (Ok _, fs') => (Ok [file_name], fs')
               end in
  match size_limit with
  | None => whole
  | Some s =>
      match (do ffi <- get d kFFI;
             match ffi with
             | PInt 1001 => do v <- get d kV; do v0 <- index v 0; do n <- len_v v0; Ok (s <? n)%Z
             | _ => Ok false
             end)%res with
      | Err e => (Err e, fs)
      | Ok true => writeNAFileSubsets fuel o d file_name s fs
      | Ok false => whole
      end
  end.
(** xarray_to_na.py:229-365 [writeNAFiles]: the list [output_files_written], the
    modified dictionaries, and the disk.  [file_names[file_counter - 1]] exists
    because there are as many names as dictionaries. *)
Fixpoint write_all (fuel : nat) (s : settings) (o : opts num) (no_header : bool) (size_limit : option Z)
    (l : list (str * na)) (fs : disk) : Res (list str * list na) * disk :=
  match l with
  | [] => (Ok ([], []), fs)
  | (name, d) :: rest =>
      match prepare s d with
      | Err e => (Err e, fs)
      | Ok d' =>
          match write_one fuel o no_header size_limit name d' fs with
          | (Err e, fs') => (Err e, fs')
          | (Ok names, fs') =>
              match write_all fuel s o no_header size_limit rest fs' with
              | (Err e, fs'') => (Err e, fs'')
              | (Ok (names', ds), fs'') => (Ok (names ++ names', d' :: ds), fs'')
              end
          end
      end
  end.
Definition writeNAFiles (fuel : nat) (s : settings) (o : opts num) (no_header : bool) (size_limit : option Z)
    (na_file : str) (ds : list na) (fs : disk) : Res (list str * list na) * disk :=
  write_all fuel s o no_header size_limit (combine (constructNAFileNames na_file (length ds)) ds) fs.
End Write.
