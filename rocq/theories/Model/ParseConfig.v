(** utils/parse_config.py: configuration files, and python's parser of such files
    (configparser.py of python 3.11, class RawConfigParser with its default
    settings, as far as parse_config.py uses it).
    Simplifications: a file is the text that python's file object delivers, with
    line ends translated; a file that cannot be decoded is not modelled. *)
From Coq Require Import List NArith ZArith Bool.
From Verif Require Import Py.Str Py.Res Model.CommonUtils Model.Xarray.
Import ListNotations.

Definition c_lbrack : chr := 91%N.
Definition c_rbrack : chr := 93%N.
Definition c_eq : chr := 61%N.
Definition c_colon : chr := 58%N.
Definition c_hash : chr := 35%N.
Definition c_semi : chr := 59%N.
Definition c_amp : chr := 38%N.

Inductive ini_error := MissingSectionHeader | DuplicateSection | DuplicateOption | ParsingError | NoSection | NoKey.
Inductive ini (A : Type) := Got (a : A) | Bad (e : ini_error).
Arguments Got {A}. Arguments Bad {A}.
Definition bindI {A B} (m : ini A) (f : A -> ini B) : ini B := match m with Got a => f a | Bad e => Bad e end.

(** ** configparser.py *)
Definition default_section : str := lit "DEFAULT".
(** The variables of configparser.py:1029-1035 and the sections read so far, each
    with its options and the lines of their values; the section DEFAULT is kept
    with the others. *)
Record reading := mkReading {
  r_sections : list (str * list (str * list str));
  r_section : option str;
  r_option : option str;
  r_indent : nat;
  r_error : bool
}.
(** configparser.py:574-578: the regular expression of a section header, matched
    at the beginning of [s]; [.+] takes as much as it can. *)
Fixpoint last_rbrack (s : str) : option str :=
  match s with
  | [] => None
  | c :: t => match last_rbrack t with
              | Some u => Some (c :: u)
              | None => if (c =? c_rbrack)%N then Some [] else None
              end
  end.
Definition section_header (s : str) : option str :=
  match s with
  | c :: t => if (c =? c_lbrack)%N then match last_rbrack t with Some (x :: u) => Some (x :: u) | _ => None end else None
  | [] => None
  end.
(** configparser.py:579-586: an option line, cut at the first of the signs = and :. *)
Fixpoint cut_option (s : str) : option (str * str) :=
  match s with
  | [] => None
  | c :: t => if ((c =? c_eq) || (c =? c_colon))%N then Some ([], t)
              else match cut_option t with Some (a, b) => Some (c :: a, b) | None => None end
  end.
Definition option_line (s : str) : option (str * str) :=
  match cut_option s with Some (a, b) => Some (rstrip a, strip b) | None => None end.

(** [cursect[optname].append(l)]. *)
Fixpoint append_line (sections : list (str * list (str * list str))) (sec opt l : str) : list (str * list (str * list str)) :=
  match sections with
  | [] => []
  | (n, options) :: t =>
      if str_eqb n sec then (n, map (fun p => if str_eqb (fst p) opt then (fst p, snd p ++ [l]) else p) options) :: t
      else (n, options) :: append_line t sec opt l
  end.
(** [cursect[optname] = [v]] for a new option. *)
Fixpoint new_option (sections : list (str * list (str * list str))) (sec opt v : str) : list (str * list (str * list str)) :=
  match sections with
  | [] => []
  | (n, options) :: t =>
      if str_eqb n sec then (n, options ++ [(opt, [v])]) :: t else (n, options) :: new_option t sec opt v
  end.
Definition is_comment (s : str) : bool := match s with c :: _ => ((c =? c_hash) || (c =? c_semi))%N | [] => false end.
(** configparser.py:1072-1074 *)
Definition indent_of (line : str) : nat := (length line - length (lstrip line))%nat.

(** configparser.py:1037-1129 [_read], one line. *)
Definition read_ini_line (r : reading) (line : str) : ini reading :=
  let value := strip line in
  let current := match r_section r, r_option r with Some s, Some (c :: o) => Some (s, c :: o) | _, _ => None end in
  if is_comment value then Got r
  else if is_nil value then
    match current with
    | Some (s, o) => Got (mkReading (append_line (r_sections r) s o []) (r_section r) (r_option r) (r_indent r) (r_error r))
    | None => Got r
    end
  else
    let indent := indent_of line in
    match (match current with Some p => if (r_indent r <? indent)%nat then Some p else None | None => None end) with
    | Some (s, o) => Got (mkReading (append_line (r_sections r) s o value) (r_section r) (r_option r) (r_indent r) (r_error r))
    | None =>
        match section_header value with
        | Some name =>
            match lookup name (r_sections r) with
            | Some _ => if str_eqb name default_section then Got (mkReading (r_sections r) (Some name) None indent (r_error r)) else Bad DuplicateSection
            | None => Got (mkReading (r_sections r ++ [(name, [])]) (Some name) None indent (r_error r))
            end
        | None =>
            match r_section r with
            | None => Bad MissingSectionHeader
            | Some s =>
                match option_line value with
                | None => Got (mkReading (r_sections r) (r_section r) (r_option r) indent true)
                | Some (o, v) =>
                    match lookup o (match lookup s (r_sections r) with Some l => l | None => [] end) with
                    | Some _ => Bad DuplicateOption
                    | None => Got (mkReading (new_option (r_sections r) s o v) (Some s) (Some o) indent (r_error r || is_nil o))
                    end
                end
            end
        end
    end.
Fixpoint read_ini_lines (r : reading) (ls : list str) : ini reading :=
  match ls with
  | [] => Got r
  | l :: t => bindI (read_ini_line r l) (fun r => read_ini_lines r t)
  end.
(** configparser.py:1130-1146 [_join_multiline_values] and the end of [_read]. *)
Definition joined (options : list (str * list str)) : list (str * str) := map (fun p => (fst p, rstrip (join nl (snd p)))) options.
Definition parser := list (str * list (str * str)).
Definition read_ini (content : str) : ini parser :=
  bindI (read_ini_lines (mkReading [] None None 0 false) (readlines content)) (fun r =>
  if r_error r then Bad ParsingError else Got (map (fun p => (fst p, joined (snd p))) (r_sections r))).
(** configparser.py:694-719 [read]: a file that cannot be opened counts as empty. *)
Definition read_conf (content : option str) : ini parser := match content with Some t => read_ini t | None => Got [] end.

(** configparser.py:659-662 [sections], :685-692 [options], :781-814 [get]. *)
Definition conf_sections (p : parser) : list str := filter (fun n => negb (str_eqb n default_section)) (map fst p).
Definition conf_defaults (p : parser) : list (str * str) := match lookup default_section p with Some l => l | None => [] end.
Definition conf_items (p : parser) (section : str) : ini (list (str * str)) :=
  if str_eqb section default_section then Bad NoSection else
  match lookup section p with
  | None => Bad NoSection
  | Some l => Got (l ++ filter (fun q => match lookup (fst q) l with Some _ => false | None => true end) (conf_defaults p))
  end.

(** ** parse_config.py *)
(** A key or value of the dictionary: a string or a tuple of strings. *)
Inductive entry := One (s : str) | Tuple (l : list str).
Definition entry_eqb (a b : entry) : bool :=
  match a, b with
  | One s, One t => str_eqb s t
  | Tuple l, Tuple m => (length l =? length m)%nat && forallb (fun p => str_eqb (fst p) (snd p)) (combine l m)
  | _, _ => false
  end.
Definition config := list (str * list (entry * entry)).
Fixpoint eset (k v : entry) (l : list (entry * entry)) : list (entry * entry) :=
  match l with
  | [] => [(k, v)]
  | (k', v') :: t => if entry_eqb k k' then (k', v) :: t else (k', v') :: eset k v t
  end.
(** parse_config.py:48-55 *)
Definition with_tuples (s : str) : entry := if mem_chr c_amp s then Tuple (split_chr c_amp s) else One s.
Definition with_spaces (s : str) : str := replace_str (lit "__space__") (lit " ") s.
(** parse_config.py:31-59 [makeConfigDict]. *)
Definition makeConfigDict (content : option str) : ini config :=
  bindI (read_conf content) (fun p =>
  fold_right (fun section rest =>
      bindI (conf_items p section) (fun items =>
      bindI rest (fun rest =>
      Got ((section, fold_left (fun d q => eset (with_tuples (fst q)) (with_tuples (with_spaces (snd q))) d) items []) :: rest))))
    (Got []) (conf_sections p)).

(** parse_config.py:72-86 [makeAnnotationsConfigDict]. *)
Definition makeAnnotationsConfigDict (content : option str) : ini (list (str * str)) :=
  bindI (read_conf content) (fun p => conf_items p (lit "annotations")).
(** parse_config.py:104-122 [makeLocalAttributesConfigDict]. *)
Definition makeLocalAttributesConfigDict (content : option str) : ini (list (str * list (str * str))) :=
  bindI (read_conf content) (fun p =>
  bindI (conf_items p (lit "nc_attributes")) (fun nc =>
  bindI (conf_items p (lit "na_attributes")) (fun na =>
  Got [(lit "nc_attributes", nc); (lit "na_attributes", na)]))).

(** ** The distributed files *)
(** config/nappy.ini:1-50, with the line ends of the file. *)
Definition nappy_ini : str := concat (map (fun l => lit l ++ [c_cr; c_nl]) [
"[main]";
"; deprecated: version = 0.3.0";
"DEBUG = False";
"default_delimiter = __space____space____space____space__";
"default_float_format = %.10g";
"comment_override_rule = insert ";
"add_column_headers = True";
"annotations_file = annotations.ini";
"local_attributes_file = local_attributes.ini";
"";
"[header_partitions]";
"sc_start = ==== Special Comments follow ====";
"sc_end = ==== Special Comments end ====";
"nc_start = ==== Normal Comments follow ====";
"nc_end = ==== Normal Comments end ====";
"data_next = === Data Section begins on the next line ===";
"sing_start = == Singleton Variables defined in the source file follow ==";
"sing_end = == Singleton Variables defined in the source file end ==";
"ncatts_start = == Variable attributes from source (NetCDF) file follow ==";
"ncatts_end = == Variable attributes from source (NetCDF) file end ==";
"addl_globals = === Additional Global Attributes defined in the source file ===";
"addl_vatts = === Additional Variable Attributes defined in the source file ===";
"";
"[na_to_nc_map]";
"NLHEAD = no_of_nasa_ames_header_lines";
"FFI = file_format_index";
"ONAME&ORG = institution";
"SNAME = source";
"MNAME = title";
"IVOL = file_number_in_set";
"NVOL = total_files_in_set";
"RDATE = history";
"DATE = first_valid_date_of_data";
"SCOM&NCOM = comment";
"";
"[nc_to_na_map]";
"Conventions = None";
"source = SNAME";
"title = MNAME";
"institution = ONAME&ORG";
"references = None";
"comment = SCOM&NCOM";
"history = RDATE";
"file_format_index = FFI";
"no_of_nasa_ames_header_lines = NLHEAD";
"total_files_in_set = NVOL";
"file_number_in_set = IVOL";
"first_valid_date_of_data = DATE";
"";
""]%pylit).
(** config/annotations.ini:1-30 *)
Definition annotations_ini : str := unlines (map lit [
"[annotations]";
"NLHEAD_FFI = Number of header lines; NASA Ames sub-format code";
"ONAME = Name of data creator";
"ORG = Institute of data creator";
"SNAME = Instrument or model name";
"MNAME = Project name";
"IVOL_NVOL = File number; Total number of files";
"DATE_RDATE = Starting date of data (YYYY MM DD); File creation date (YYYY MM DD)";
"DX = Interval between coordinate variable values (zero if not used)";
"NVPM = Number of extra independent variable points between independent variable values";
"NX = Length of coordinate variables";
"NXDEF = Number of coordinate variable values explicity defined in header";
"X = Values of coordinate variable";
"LENX = Number of characters in character-based coordinate variable";
"LENA = Number of characters in character-based auxiliary variable";
"XNAME = Name of coordinate variable (with units)";
"NV = Number of primary variables defined";
"VSCAL = Scale factors for each primary variable";
"VMISS = Missing values for each primary variable";
"VNAME = Name of primary variable (with units)";
"NAUXV = Number of auxiliary variables";
"NAUXC = Number of character-based auxiliary variables";
"ASCAL = Scale factors for each auxiliary variable";
"AMISS = Missing values for each auxiliary variable";
"ANAME = Name of auxiliary variable (with units)";
"NSCOML = Number of lines of special comments";
"SCOM = Special comments line";
"NNCOML = Number of lines of normal comments";
"NCOM = Normal comments line";
"Data = Data section "]%pylit).
(** config/local_attributes.ini:1-5. *)
Definition local_attributes_ini : str := unlines (map lit [
"[nc_attributes]";
"institution = Data held at British Atmospheric Data Centre (BADC), Rutherford Appleton Laboratory, UK.";
"";
"[na_attributes]";
"ORG = Data held at British Atmospheric Data Centre (BADC), Rutherford Appleton Laboratory, UK."]%pylit).
