(** What the tests in /repo/tests assert, for the model. *)
From Coq Require Import List NArith ZArith Bool Floats.SpecFloat.
From Verif Require Import Py.Str Py.Res Py.Num Py.Arith Model.Dict Model.TextParser Model.CommonUtils Model.NAWrite Model.NARead Model.NACore Model.NCWrite
  Model.Xarray Model.Collector Model.ToXarray Model.Api Model.CommandLine Model.Programs Model.Coord Spec.Binary64 Props.AxisProps Props.Recorded.
Import ListNotations.

(** ** tests/test_var_units.py *)
(** tests/testdata/2010b.na *)
Definition na_2010b : str := text
  ["31  2010";
   "Mertz, Fred";
   "Pacific University";
   "NMC analyzed grid data interpolated to DC-8 flight path";
   "TAHITI OZONE PROJECT";
   "1  1";
   "1991 01 16   1991 01 16";
   "0.0  30.0";
   "8";
   "8";
   "250 200 150 100 70 50 30 10";
   "Pressure levels (mb)";
   "Time (UT seconds) from 00 hours on launch date";
   "3";
   "1.0   0.1  1.0E-09";
   "99999 9999 9999999";
   "Geopotential height (gpm)";
   "Temperature (K)";
   "Potential vorticity (K m**2/(kg s))";
   "2";
   "1.0 0.1";
   "99999 9999";
   "Geopotential height (gpm) of the DC-8";
   "Temperature (K) at DC-8's position";
   "0";
   "5                  ";
   "The geopotential height, temperature, and potential vorticity";
   "values were interpolated from NMC analyses to a vertical cross-";
   "section along the DC-8 flight path.";
   "NOTE: PRELIMINARY data.";
   "	250mb   200mb   150mb   100mb    70mb    50mb    30mb    10mb";
   "	3350  1127 2682";
   "	9994   11395   13219   15762   17970   20000   23016   29411";
   "	2150    2154    2156    2115    2082    2042    1991    2021";
   "	4119    7050    8030   11300   16200   23500   50300  386000";
   "	3380  1289 2671";
   "	9992   11393   13217   15760   17968   19998   23013   29408";
   "	2151    2154    2156    2115    2081    2041    1990    2020";
   "	4128    7050    8040   11300   16200   23500   50400  386000";
   "	3410  1479 2653";
   "	9990   11392   13215   15759   17966   19996   23010   29404";
   "	2151    2154    2156    2115    2081    2041    1990    2020";
   "	4138    7060    8050   11400   16200   23500   50500  386000";
   ""]%pylit.
(** test_var_units.py:23-32 [custom_parser]: the name is what is before the first
    opening and after the last closing parenthesis. *)
Definition custom_parser (s : str) : str * option str :=
  match cut_at 40%N s with
  | Some (name, t) =>
      match cut_at 41%N (rev t) with
      | Some (remainder, units) => (name ++ rev remainder, Some (rev units))
      | None => (s, Some [])
      end
  | None => (s, Some [])
  end.
Definition variables_2010b (callback : option (str -> str * option str)) : Res (list (str * option str)) :=
  match openNAFile_r (num := b64) na_2010b 0 with
  | Ok (_, d) => match getVariables callback d with Ok l => Ok (map (fun i => (i_name i, i_units i)) l) | Err e => Err e end
  | Err e => Err e
  end.
(** test_var_units.py:36-52: [expected1] and [expected2]. *)
Example units_default : variables_2010b None =
  Ok [(lit "Geopotential height", Some (lit "gpm")); (lit "Temperature", Some (lit "K")); (lit "Potential vorticity (K m**2/ )", Some (lit "kg s"))].
Proof. vm_compute. reflexivity. Qed.
Example units_callback : variables_2010b (Some custom_parser) =
  Ok [(lit "Geopotential height", Some (lit "gpm")); (lit "Temperature", Some (lit "K")); (lit "Potential vorticity", Some (lit "K m**2/(kg s)"))].
Proof. vm_compute. reflexivity. Qed.

(** ** tests/test_na2nc.py *)
Definition converted (s : ToXarray.settings (num := b64)) (content : str) : option (dataset b64) :=
  let (r, fs) := convertNAToNC s (lit "in.na") content (Some (lit "out.nc")) (lit "w") (fun _ => None) in fs (lit "out.nc").
Definition set_of (vars : select) (globals : list (str * gval b64)) (units : option str) (warning : bool) (rename : list (str * str)) :=
  mkSet vars SAll globals units warning [] rename None (lit "2024-02-06 15:13:56") (lit "2.0.2").
Definition names (d : option (dataset b64)) : list str := match d with Some d => map v_name (ds_vars d) | None => [] end.
(** test_na2nc.py:23-59: without a question, the formats 1001, 2010, 3010 and 4010 are converted. *)
Example na2nc_formats : map (fun t => names (converted (set_of SAll [] None false []) t)) [na_1001; na_2010; na_3010; na_4010] =
  map (map lit) [["ascent_rate"; "height_above_msl"; "pressure"]; ["mean_zonal_wind"; "pressure"]; ["temperature"]; ["temperature"]]%pylit.
Proof. vm_compute. reflexivity. Qed.
(** test_na2nc.py:62-83: given units are the units of the time axis. *)
Example na2nc_time_units :
  match converted (set_of SAll [] (Some (lit "seconds since 2000-09-20 00:00:00")) true []) na_1001 with
  | Some d => map (fun v => map (fun a => option_map (@g_val b64) (n_attr (ax_info a) (lit "units"))) (v_axes v)) (ds_vars d)
  | None => []
  end = repeat [Some (PStr (lit "seconds since 2000-09-20 00:00:00"))] 3.
Proof. vm_compute. reflexivity. Qed.
(** test_na2nc.py:86-95 and 130-137: renaming. *)
Example na2nc_rename :
  names (converted (set_of SAll [] None false [(lit "pressure", lit "measurep")]) na_1001) = map lit ["ascent_rate"; "height_above_msl"; "measurep"]%pylit /\
  names (converted (set_of SAll [] None false [(lit "Temperature", lit "testvar1")]) na_4010) = [lit "testvar1"].
Proof. vm_compute. split; reflexivity. Qed.
(** test_na2nc.py:98-107: global attributes. *)
Example na2nc_globals :
  match converted (set_of SAll [(lit "useful_info", gstr (lit "happy_days"))] None false []) na_1001 with
  | Some d => lookup (lit "useful_info") (ds_attrs d)
  | None => None
  end = Some (gstr (lit "happy_days")).
Proof. vm_compute. reflexivity. Qed.
(** test_na2nc.py:119-128: one variable. *)
Example na2nc_first : names (converted (set_of (SNums [0]) [] None false []) na_1001) = [lit "ascent_rate"].
Proof. vm_compute. reflexivity. Qed.

(** ** tests/test_nc2na.py *)
(** tests/cached_outputs/1001.nc as [xr.open_dataset] gives it: [missing_value]
    of the variables, and the units and the calendar of the time axis are in the
    encoding, the dates are decoded. *)
Definition days : str := lit "days since 2008-01-01 00:00:00".
Definition time_1001 : axis b64 :=
  mkAx (mkNamed (lit "time") [(lit "name", gstr (lit "time (days since 2008-01-01 00:00:00)")); (lit "long_name", gstr (lit "time (days since 2008-01-01 00:00:00)"));
                              (lit "standard_name", gstr (lit "time")); (lit "axis", gstr (lit "T"))] days)
    [Some (lit "time"); None; None; None] [bf "79200"; bf "79210"; bf "79220"] (Some [bf "79200"; bf "79210"; bf "79220"]).
Definition var_1001 (name title units : pylit) (number : Z) (values : list b64) : xvar b64 :=
  mkVar (mkNamed (lit name) [(lit "title", gstr (lit title)); (lit "long_name", gstr (lit title)); (lit "units", gstr (lit units));
                             (lit "nasa_ames_var_number", mkG true (PInt number))] [])
    [time_1001] (PList (map PNum values)) (Some (PNum (bf "-1"))) None.
Definition ds_1001 : dataset b64 := mkDs
  [var_1001 "ascent_rate"%pylit "Ascent Rate"%pylit "m/s"%pylit 0 [bf "0"; bf "4.4"; bf "3.7"];
   var_1001 "height_above_msl"%pylit "Height above MSL"%pylit "m"%pylit 1 [bf "30"; bf "74"; bf "105"];
   var_1001 "pressure"%pylit "Pressure"%pylit "hPa"%pylit 2 [bf "1017.6"; bf "1012.5"; bf "1008.8"]]
  [(lit "Conventions", gstr (lit "CF-1.0"));
   (lit "comment", gstr (text ["==== Normal Comments follow ===="; "Location : 36.79 S 174.63 E     30 m"; "RS-number: 002104615"; "==== Normal Comments end ===="]%pylit));
   (lit "title", gstr (lit "Project: Gravity Wave Processes and their Role in Climate")); (lit "file_number_in_set", mkG true (PInt 1));
   (lit "source", gstr (lit "Data:    NZMS Radiosonde Ascent")); (lit "first_valid_date_of_data", mkG true (PList [PInt 2000; PInt 9; PInt 20]));
   (lit "total_files_in_set", mkG true (PInt 1)); (lit "no_of_nasa_ames_header_lines", mkG true (PInt 25));
   (lit "file_format_index", mkG true (PInt 1001));
   (lit "institution", gstr (lit "Bryan Lawrence (ONAME from NASA Ames file); Physics and Astronomy, University of Canterbury (ORG from NASA Ames file)."));
   (lit "history", gstr (text ["2003-04-10 - NASA Ames File created/revised."; ""; "2021-05-10 15:13:29 - Converted to CDMS (NetCDF) format using nappy-0.3.0."]%pylit))].
(** ["%03d" % x] for x >= 0 *)
Definition fmt_03d (x : b64) : str := match b_trunc x with Some z => let s := dec_of_Z z in repeat 48%N (3 - length s) ++ s | None => lit "?" end.
Definition file_1001 (exclude : list str) (over : list (str * str)) (fmt : b64 -> str) (annotated no_header : bool) : Res str :=
  let a := mkNcArgs env_b (mkSettings RInsert true (overriders over)) IAll exclude None fmt None annotated annotation no_header in
  match convertNCToNA 10 a (lit "1001.nc") ds_1001 (Some (lit "1001.nc.na")) false (lit "    ") [] with
  | (Ok [n], [(n', f)]) => if str_eqb n n' then Ok f else Err EUnmodelled
  | (Ok _, _) => Err EUnmodelled
  | (Err e, _) => Err e
  end.
Definition file_lines (r : Res str) : list str := match r with Ok f => readlines f | Err _ => [] end.
Definition header_line (r : Res str) (n : nat) : str := nth n (file_lines r) [].
(** test_nc2na.py:48-49: a file of more than 100 characters. *)
Example nc2na_size : match file_1001 [] [] (fmt_g 6) false false with Ok f => Nat.ltb 100 (length f) = true | Err _ => False end.
Proof. vm_compute. reflexivity. Qed.
(** test_nc2na.py:68-82: without the variable Ascent Rate. *)
Example nc2na_exclude :
  match readXarrayFile ds_1001 IAll [lit "Ascent Rate"] true with Ok l => map v_name l | Err _ => [] end = map lit ["height_above_msl"; "pressure"]%pylit /\
  match file_1001 [lit "Ascent Rate"] [] (fmt_g 6) false false with
  | Ok f => match read_file (num := b64) f 0 with Ok (_, d) => attr d kVNAME | Err _ => PNone end
  | Err _ => PNone
  end = PList [PStr (lit "Height above MSL (m)"); PStr (lit "Pressure (hPa)")].
Proof. vm_compute. split; reflexivity. Qed.
(** test_nc2na.py:85-94: another originator. *)
Example nc2na_originator :
  match file_1001 [] [(lit "ONAME", lit "See line 2 - my favourite org.")] (fmt_g 6) false false with
  | Ok f => match read_file (num := b64) f 0 with Ok (_, d) => attr d kONAME | Err _ => PNone end
  | Err _ => PNone
  end = PStr (lit "See line 2 - my favourite org.").
Proof. vm_compute. reflexivity. Qed.
(** test_nc2na.py:97-104: the third line from the end. *)
Example nc2na_padded : let l := file_lines (file_1001 [] [] fmt_03d false false) in strip (nth (length l - 3) l []) = lit "79200    000    030    1017".
Proof. vm_compute. reflexivity. Qed.
(** test_nc2na.py:107-114: no header. *)
Example nc2na_no_header : strip (header_line (file_1001 [] [] (fmt_g 10) false true) 0) = lit "79200    0    30    1017.6".
Proof. vm_compute. reflexivity. Qed.
(** test_nc2na.py:117-124: annotations. *)
Example nc2na_annotated : starts_with (lit "Number of header lines;") (header_line (file_1001 [] [] (fmt_g 10) true false) 0) = true.
Proof. vm_compute. reflexivity. Qed.
(** test_nc2na.py:127-133: the name of the file. *)
Example nc2na_names : default_na_file (lit "1001.nc") = lit "1001.na".
Proof. vm_compute. reflexivity. Qed.
