(** nappy/nc_interface/na_to_xarray.py: conversion of a NASA Ames file that has
    been read to xarray objects, and what nappy/nc_interface/na_to_nc.py puts into
    the NetCDF file.

    Simplifications: [d] stands for the attributes of the NAFile object after
    [readData]; numbers of selected variables are not negative; [lower], [\d] and
    [\w] know ASCII letters and digits only; the log and [output_message] are not
    modelled; of cf_xarray, only the recognition of standard names is modelled; a
    variable with two axes of one name is not modelled. *)
From Coq Require Import List NArith ZArith Bool.
From Verif Require Import Py.Str Py.Res Py.Num Py.Arith Model.Dict Model.CommonUtils Model.Utils Model.NACore Model.NCWrite Model.Normalize
  Model.Xarray Model.Collector.
Import ListNotations.

(** na_to_xarray.py:38, the characters of [safe_nc_id]: slash, white space,
    brackets, parentheses and the signs = + - ? # ~ @ & $ % ! * braces ^. *)
Definition unsafe (c : chr) : bool :=
  is_space c || existsb (N.eqb c) [47; 91; 40; 41; 93; 61; 43; 45; 63; 35; 126; 64; 38; 36; 37; 33; 42; 123; 125; 94]%N.
(** [safe_nc_id.sub("_", s)]: every run of such characters becomes one
    underscore.  [inside] says that the previous character was one. *)
Fixpoint sub_unsafe (inside : bool) (s : str) : str :=
  match s with
  | [] => []
  | c :: t => if unsafe c then (if inside then sub_unsafe true t else c_us :: sub_unsafe true t)
              else c :: sub_unsafe false t
  end.
(** na_to_xarray.py:40, :278-281, :351-354, :401-404; [kind] is the beginning of the
    substitute name. *)
Definition nc_name (kind : str) (i : nat) (name : str) : str :=
  if (length name <? 64)%nat then lower (sub_unsafe false name) else kind ++ dec_of_nat i.

(** na_to_xarray.py:39 [time_units_pattn.match]; the optional part at the end
    plays no role.  Simplification: letters and digits are those of ASCII. *)
Definition is_word (c : chr) : bool :=
  is_digit c || ((65 <=? c) && (c <=? 90))%N || ((97 <=? c) && (c <=? 122))%N || (c =? c_us)%N.
(** One or more characters of a class, as many as possible. *)
Fixpoint drop_class (p : chr -> bool) (s : str) : str :=
  match s with c :: t => if p c then drop_class p t else s | [] => [] end.
Definition many (p : chr -> bool) (s : str) : option str :=
  match s with c :: t => if p c then Some (drop_class p t) else None | [] => None end.
(** One to [n] digits, as many as possible. *)
Fixpoint drop_digits (n : nat) (s : str) : str :=
  match n, s with S n', c :: t => if is_digit c then drop_digits n' t else s | _, _ => s end.
Definition digits (n : nat) (s : str) : option str :=
  match s with c :: t => if is_digit c then Some (drop_digits (pred n) t) else None | [] => None end.
Definition literal (p s : str) : option str := if starts_with p s then Some (skipn (length p) s) else None.
Definition andthen {A B} (m : option A) (f : A -> option B) : option B := match m with Some a => f a | None => None end.
Definition is_time_units (s : str) : bool :=
  match andthen (many is_word s) (fun s => andthen (many is_space s) (fun s => andthen (literal (lit "since") s) (fun s =>
        andthen (many is_space s) (fun s => andthen (digits 4 s) (fun s => andthen (literal (lit "-") s) (fun s =>
        andthen (digits 2 s) (fun s => andthen (literal (lit "-") s) (fun s => digits 2 s)))))))) with
  | Some _ => true
  | None => false
  end.

(** ["%.nd" % z]. *)
Definition pad_zeros (n : nat) (s : str) : str := repeat 48%N (n - length s) ++ s.
Definition dec_prec (n : nat) (z : Z) : str :=
  match z with Zneg p => c_minus :: pad_zeros n (dec_of_Z (Zpos p)) | _ => pad_zeros n (dec_of_Z z) end.

(** [d[k] = v] for a dictionary that keeps its order. *)
Fixpoint dset {A} (k : str) (v : A) (l : list (str * A)) : list (str * A) :=
  match l with
  | [] => [(k, v)]
  | (k', v') :: t => if str_eqb k k' then (k, v) :: t else (k', v') :: dset k v t
  end.
(** [dict(l)]. *)
Definition dict_of_list {A} (l : list (str * A)) : list (str * A) := fold_left (fun d p => dset (fst p) (snd p) d) l [].

Section ToXarray.
Context {num : Type} `{NumOps num} `{ArithOps num}.
Local Notation pyv := (pyv num).
Local Notation na := (na num).
Local Notation xvar := (xvar num).
Local Notation axis := (axis num).
Local Notation gval := (gval num).
Open Scope res_scope.

(** ** Global attributes *)
(** na_to_xarray.py:41-45. *)
Definition special_known : list str := [hp_sc_start; hp_sc_end; hp_addl_vatts; hp_addl_globals; nl].
Definition normal_known : list str := [hp_nc_start; hp_nc_end; hp_data_next; hp_addl_vatts; hp_addl_globals; nl].
(** na_to_xarray.py:151-154 and :162-164: the lines that are kept. *)
Definition kept_lines (known : list str) (com : pyv) : Res str :=
  do l <- as_list com;
  do ls <- mapR as_str l;
  Ok (flat_map (fun i => if mem_str (strip i) known then [] else nl ++ i) ls).
(** na_to_xarray.py:143-171. *)
Definition comment_line (d : na) : Res str :=
  do ns <- as_int (attr d kNSCOML);
  do sc <- (if (0 <? ns)%Z then do t <- kept_lines special_known (attr d kSCOM);
                                Ok (hp_sc_start ++ nl ++ t ++ nl ++ hp_sc_end ++ nl)
            else Ok []);
  do nn <- as_int (attr d kNNCOML);
  do nc <- (if (0 <? nn)%Z then do t <- kept_lines normal_known (attr d kNCOM);
                                Ok (hp_nc_start ++ nl ++ t ++ nl ++ hp_nc_end)
            else Ok []);
  Ok (replace_str (nl ++ nl) nl (sc ++ nc)).
(** na_to_xarray.py:173-177. *)
Definition institution (d : na) : Res str :=
  do o <- fmt_s (attr d kONAME); do r <- fmt_s (attr d kORG);
  Ok (o ++ lit " (ONAME from NASA Ames file); " ++ r ++ lit " (ORG from NASA Ames file).").
(** na_to_xarray.py:184-199.  [now] is the formatted local time. *)
Definition history (now version : str) (d : na) : Res str :=
  do ps <- as_list (attr d kRDATE);
  match ps with
  | [y; m; dd] =>
      do y <- as_int y; do m <- as_int m; do dd <- as_int dd;
      Ok (dec_prec 4 y ++ lit "-" ++ dec_prec 2 m ++ lit "-" ++ dec_prec 2 dd ++ lit " - NASA Ames File created/revised." ++ nl
          ++ nl ++ now ++ lit " - Converted to Xarray (NetCDF) format using nappy-" ++ version ++ lit ".")
  | _ => Err ETypeError
  end.
(** na_to_xarray.py:137-203: the dictionary [glob_atts]; the order is the one of
    config/nappy.ini:24-34. *)
Definition glob_atts (now version : str) (d : na) (user : list (str * gval)) : Res (list (str * gval)) :=
  let plain k := mkG false (attr d k) in
  do inst <- institution d;
  do hist <- history now version d;
  do com <- comment_line d;
  Ok (fold_left (fun g p => dset (fst p) (snd p) g)
        [(lit "no_of_nasa_ames_header_lines", plain kNLHEAD); (lit "file_format_index", plain kFFI);
         (lit "institution", gstr inst); (lit "source", plain kSNAME); (lit "title", plain kMNAME);
         (lit "file_number_in_set", plain kIVOL); (lit "total_files_in_set", plain kNVOL);
         (lit "history", gstr hist); (lit "first_valid_date_of_data", plain kDATE); (lit "comment", gstr com)]
        (dict_of_list user)).
(** na_to_xarray.py:132-215 [_mapNACommentsToGlobalAttributes]. *)
Definition mapNACommentsToGlobalAttributes (now version : str) (d : na) (user : list (str * gval)) : Res (list (str * gval)) :=
  do g <- glob_atts now version d user;
  do first <- mapR (fun p => do v <- of_opt EKeyError (lookup (fst p) g); Ok (fst p, v)) user;
  Ok (first ++ filter (fun p => negb (mem_str (fst p) (map fst first))) g).

(** ** Axes *)
Definition nums_of (v : pyv) : Res (list num) :=
  match v with
  | PList l => mapR (fun x => match x with PNum n => Ok n | _ => Err EUnmodelled end) l
  | _ => Err EUnmodelled
  end.
(** na_to_xarray.py:406-413: the first of the four words that the name contains. *)
Definition axis_types : list (str * str) :=
  [(lit "longitude", lit "X"); (lit "latitude", lit "Y"); (lit "level", lit "Z"); (lit "time", lit "T")].
Definition axis_type (name : str) : option (str * str) := find (fun p => contains (fst p) (lower name)) axis_types.
(** na_to_xarray.py:418-434: the question to the user; [answers] is what will be
    typed (then the end of the input). *)
Fixpoint ask (answers : list str) : Res (str * list str) :=
  match answers with
  | [] => Err (ENappy E_Other)
  | a :: t => let a := strip a in if is_nil a || is_time_units a then Ok (a, t) else ask t
  end.
(** [self.time_units] and the answers of the user. *)
Record asked := mkAsked { k_units : option str; k_answers : list str }.
Definition units_pv (u : option str) : pyv := match u with Some s => PStr s | None => PNone end.
(** na_to_xarray.py:378-453 [_convertNAIndVarToXarrayAxis], after normalisation. *)
Definition convertAxis (callback : option (str -> str * option str)) (warning : bool) (d : na) (i : nat) (k : asked) : Res (axis * asked) :=
  do niv <- as_int (attr d kNIV);
  do array <- (if (niv =? 1)%Z then Ok (attr d kX) else index (attr d kX) i);
  do vals <- nums_of array;
  do v <- index (attr d kXNAME) i;
  do long_name <- as_str v;
  let (name, units) := attemptVarAndUnitsMatch callback long_name in
  let attrs := [(lit "long_name", gstr long_name); (lit "units", mkG false (units_pv units))] in
  let xname := nc_name (lit "naIndVariable_") i name in
  let '(xname, attrs) := match axis_type xname with
                         | Some (t, l) => (t, dset (lit "axis") (gstr l) (dset (lit "standard_name") (gstr t) attrs))
                         | None => (xname, attrs)
                         end in
  let time := str_eqb xname (lit "time") in
  if is_nil vals then Err EIndexError
  else
    do r <- (if time && negb (is_time_units (match units with Some u => u | None => lit "None" end)) then
               do q <- (match k_units k with
                        | Some u => Ok (u, k_answers k)
                        | None => if warning then ask (k_answers k) else Ok ([], k_answers k)
                        end);
               let u := fst q in
               Ok (dset (lit "long_name") (gstr (lit "time (" ++ u ++ lit ")")) (dset (lit "units") (gstr u) attrs), u,
                   mkAsked (Some u) (snd q))
             else Ok (attrs, [], k));
    let '(attrs, enc, k) := r in
    let attrs := dset (lit "name") (gstr xname) attrs in
    let empty := match lookup (lit "units") attrs with Some (mkG _ (PStr [])) => true | Some (mkG _ PNone) => true | _ => false end in
    let attrs := if empty then dset (lit "units") (gstr (match units with Some (c :: t) => c :: t | _ => lit "Not known" end)) attrs
                 else attrs in
    let cf := map (fun t => if match axis_type xname with Some (a, _) => str_eqb a t | None => false end then Some xname else None)
                (map lit ["time"; "level"; "latitude"; "longitude"]%pylit) in
    Ok (mkAx (mkNamed xname attrs enc) cf vals None, k).
(** na_to_xarray.py:367-376 [_convertXarrayAxes], with the normalisation of
    :382-383 (the flag is false only for the classes of FFI 1020 and 2010). *)
Definition normalized (d : na) : Res na :=
  do ffi <- as_int (attr d kFFI);
  if (ffi =? 1020)%Z then normalizeIndVars_1020 d
  else if existsb (Z.eqb ffi) [2010; 3010; 4010]%Z then normalizeIndVars_2010 d
  else Ok d.
Definition convertAxes callback warning (units : option str) (answers : list str) (d : na) : Res (list axis) :=
  do niv <- as_int (attr d kNIV);
  do d <- (if (0 <? niv)%Z then normalized d else Ok d);
  do r <- forR (range niv) (fun i s => do q <- convertAxis callback warning d i (snd s); Ok (fst s ++ [fst q], snd q))
            ([], mkAsked units answers);
  Ok (fst r).

(** ** Variables *)
(** [np.array(v).shape] for a rectangular nested list. *)
Fixpoint array_shape (v : pyv) : option (list nat) :=
  match v with
  | PNum _ => Some []
  | PList [] => Some [0%nat]
  | PList (x :: t) =>
      match array_shape x with
      | Some s => if forallb (fun y => match array_shape y with Some s' => nats_eqb s s' | None => false end) t
                  then Some (length (x :: t) :: s) else None
      | None => None
      end
  | _ => None
  end.
(** [array * scal]. *)
Fixpoint scaled (s : num) (v : pyv) : pyv :=
  match v with
  | PNum x => PNum (num_times x s)
  | PList l => PList (map (scaled s) l)
  | _ => v
  end.
Definition as_num (v : pyv) : Res num :=
  match v with PNum x => Ok x | PInt z => Ok (num_of_Z z) | _ => Err ETypeError end.

(** na_to_xarray.py:246-292 [_convertNAToXarrayVariable] and :321-365
    [_convertNAAuxToXarrayVariable].  [kind] and [number] are the substitute name
    and the attribute of the two functions, [values] is V[n] or A[n], [fold] is
    applied to the name before it is looked up in [rename]. *)
Definition convertVariable (kind number : str) (fold : str -> str) (rename : list (str * str)) (info : Res var_info) (values : Res pyv)
    (axes : list axis) (i : nat) : Res xvar :=
  do v <- info;
  do values <- values;
  do scal <- as_num (i_scale v);
  match array_shape values with
  | None => Err EValueError
  | Some shape =>
      if negb (nats_eqb shape (map ax_len axes)) then Err EValueError
      else
        let name := nc_name kind i (i_name v) in
        let name := match lookup (fold name) rename with Some n => n | None => name end in
        let attrs := match i_units v with Some (c :: t) => [(lit "units", gstr (c :: t))] | _ => [] end in
        let attrs := dset number (gint (Z.of_nat i)) (dset (lit "title") (gstr name) (dset (lit "long_name") (gstr name) attrs)) in
        Ok (mkVar (mkNamed (safe_name name) attrs []) axes (scaled scal values) (Some (i_miss v)) None)
  end.
Definition convertMain callback rename (d : na) (axes : list axis) (i : nat) : Res xvar :=
  convertVariable (lit "naVariable_") (lit "nasa_ames_var_number") lower rename (getVariable callback d i) (index (attr d kV) i) axes i.
Definition convertAux callback rename (d : na) (axes : list axis) (i : nat) : Res xvar :=
  convertVariable (lit "naAuxVariable_") (lit "nasa_ames_aux_var_number") (fun n => n) rename (getAuxVariable callback d i) (index (attr d kA) i)
    (firstn 1 axes) i.

(** The arguments [variables] and [aux_variables]: all, a list of integers, or a
    list of strings. *)
Inductive select := SAll | SNums (l : list nat) | SStrs (l : list str).
Fixpoint position (s : str) (l : list pyv) (i : nat) : option nat :=
  match l with
  | [] => None
  | PStr t :: r => if str_eqb s t then Some i else position s r (S i)
  | _ :: r => position s r (S i)
  end.
(** na_to_xarray.py:217-244 [_convertXarrayVariables]. *)
Definition selected_main (d : na) (s : select) : Res (list nat) :=
  match s with
  | SAll => do nv <- as_int (attr d kNV); Ok (range nv)
  | SNums [] => Err EIndexError
  | SNums l => Ok l
  | SStrs [] => Err EIndexError
  | SStrs (x :: t) =>
      if match x with c :: _ => is_digit c | [] => false end then
        mapR (fun y => do z <- of_opt EValueError (int_of_str y); if (z <? 0)%Z then Err EUnmodelled else Ok (Z.to_nat z)) (x :: t)
      else
        mapR (fun y => do names <- as_list (attr d kVNAME); of_opt (ENappy E_Other) (position y names 0)) (x :: t)
  end.
(** na_to_xarray.py:294-319 [_convertXarrayAuxVariables]. *)
Definition selected_aux (d : na) (s : select) : Res (list nat) :=
  match s with
  | SAll => do nv <- as_int (attr d kNAUXV); Ok (range nv)
  | SNums [] => Err EIndexError
  | SNums l => Ok l
  | SStrs [] => Err EIndexError
  | SStrs l =>
      do names <- as_list (attr d kANAME);
      Ok (flat_map (fun y => match position y names 0 with Some i => [i] | None => [] end) l)
  end.

(** The arguments of na_to_xarray.py:68-96 [__init__]. *)
Record settings := mkSet {
  t_vars : select; t_aux : select; t_globals : list (str * gval);
  t_units : option str; t_warning : bool; t_answers : list str;
  t_rename : list (str * str); t_callback : option (str -> str * option str);
  t_now : str; t_version : str }.
Record objects := mkObj { o_vars : list xvar; o_aux : list xvar; o_globals : list (str * gval) }.
(** na_to_xarray.py:68-130 [__init__] and [convert]. *)
Definition toXarray (s : settings) (d : na) : Res objects :=
  do ffi <- as_int (attr d kFFI);
  if existsb (Z.eqb ffi) [2110; 2160; 2310]%Z then Err ETypeError
  else
    let rename := dict_of_list (map (fun p => (lower (fst p), snd p)) (t_rename s)) in
    do g <- mapNACommentsToGlobalAttributes (t_now s) (t_version s) d (t_globals s);
    do axes <- convertAxes (t_callback s) (t_warning s) (t_units s) (t_answers s) d;
    do is <- selected_main d (t_vars s);
    do vars <- mapR (convertMain (t_callback s) rename d axes) is;
    do aux <- (match attr d kNAUXV with
               | PInt n => if (0 <? n)%Z then do js <- selected_aux d (t_aux s); mapR (convertAux (t_callback s) rename d axes) js
                           else Ok []
               | _ => Ok []
               end);
    Ok (mkObj vars aux g).

(** na_to_nc.py:88-113 [writeNCFile]: the variables and global attributes of the
    NetCDF file. *)
Definition file_variables (o : objects) : list (str * xvar) := dict_of_list (map (fun v => (v_name v, v)) (o_vars o ++ o_aux o)).
Definition file_attributes (o : objects) : list (str * gval) := dict_of_list (o_globals o).
End ToXarray.
