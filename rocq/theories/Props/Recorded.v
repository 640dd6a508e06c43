(** The model against what the program wrote: the files in /repo/tests.

    tests/test_na_file.py reads tests/testdata/N.na, and writes what it has read
    three times without reading again: to tests/test_outputs/test_N.na, with
    commas and the format %.6f to test_N.csv, and with commas and annotations to
    a third file.  The files in tests/test_outputs are in the repository, so that
    the model can be compared with the program, character by character.  The
    numbers are binary64.

    The third file: the test gives it the name test_2010_annotated.csv for all
    formats, so that the last one, of format 4010, is left.  The files
    test_N_annotated.csv of the other formats are of an earlier test; those of
    1010 and 1020 are from Python 2 (1e12 is written as 1e+12) and are not used
    here. *)
From Coq Require Import List NArith ZArith Bool Floats.SpecFloat.
From Verif Require Import Py.Str Py.Res Py.Num Py.Arith Model.Dict Model.TextParser Model.CommonUtils Model.NAWrite Model.NARead Model.NCWrite
  Model.Xarray Model.Collector Model.ToXarray Model.Api Model.CommandLine Model.Programs Model.Compare Spec.Binary64.
Import ListNotations.

Definition text (l : list pylit) : str := join [10%N] (map lit l).
(** ["%.<p>f" % x] *)
Definition fmt_f (p : Z) (x : b64) : str :=
  match x with
  | S754_nan => lit "nan"
  | S754_infinity s => sign_str s ++ lit "inf"
  | S754_zero s => sign_str s ++ lit "0." ++ repeat 48%N (Z.to_nat p)
  | S754_finite s m e =>
      let (n, d) := frac_of m e in
      let q := half_even (n * 10 ^ p) d in
      let f := dec_of_Z (q mod 10 ^ p) in
      sign_str s ++ dec_of_Z (q / 10 ^ p) ++ lit "." ++ repeat 48%N (Z.to_nat p - length f) ++ f
  end.
(** nappy/config/annotations.ini *)
Definition annotations : list (str * str) :=
  [(lit "NLHEAD_FFI", lit "Number of header lines; NASA Ames sub-format code");
   (lit "ONAME", lit "Name of data creator");
   (lit "ORG", lit "Institute of data creator");
   (lit "SNAME", lit "Instrument or model name");
   (lit "MNAME", lit "Project name");
   (lit "IVOL_NVOL", lit "File number; Total number of files");
   (lit "DATE_RDATE", lit "Starting date of data (YYYY MM DD); File creation date (YYYY MM DD)");
   (lit "DX", lit "Interval between coordinate variable values (zero if not used)");
   (lit "NVPM", lit "Number of extra independent variable points between independent variable values");
   (lit "NX", lit "Length of coordinate variables");
   (lit "NXDEF", lit "Number of coordinate variable values explicity defined in header");
   (lit "X", lit "Values of coordinate variable");
   (lit "LENX", lit "Number of characters in character-based coordinate variable");
   (lit "LENA", lit "Number of characters in character-based auxiliary variable");
   (lit "XNAME", lit "Name of coordinate variable (with units)");
   (lit "NV", lit "Number of primary variables defined");
   (lit "VSCAL", lit "Scale factors for each primary variable");
   (lit "VMISS", lit "Missing values for each primary variable");
   (lit "VNAME", lit "Name of primary variable (with units)");
   (lit "NAUXV", lit "Number of auxiliary variables");
   (lit "NAUXC", lit "Number of character-based auxiliary variables");
   (lit "ASCAL", lit "Scale factors for each auxiliary variable");
   (lit "AMISS", lit "Missing values for each auxiliary variable");
   (lit "ANAME", lit "Name of auxiliary variable (with units)");
   (lit "NSCOML", lit "Number of lines of special comments");
   (lit "SCOM", lit "Special comments line");
   (lit "NNCOML", lit "Number of lines of normal comments");
   (lit "NCOM", lit "Normal comments line");
   (lit "Data", lit "Data section")].
Definition annotation (s : str) : option str := option_map snd (find (fun p => str_eqb (fst p) s) annotations).
(** tests/test_na_file.py:27-50: the three files. *)
Definition three_files (t : str) : Res (str * str * str) :=
  match read_file (num := b64) t 0 with
  | Err e => Err e
  | Ok (_, d) =>
      match openNAFile_w d with
      | Err e => Err e
      | Ok (c, d) =>
          let a := write_body opts_b64 c false (mkW [] [] d) in
          let b := write_body (mkOpts (lit ",") (fmt_f 6) false (fun _ => None)) c false (mkW [] [] (w_na (snd a))) in
          let e := write_body (mkOpts (lit ",") (fmt_g 10) true annotation) c false (mkW [] [] (w_na (snd b))) in
          match fst a, fst b, fst e with
          | Ok _, Ok _, Ok _ => Ok (w_file (snd a), w_file (snd b), w_file (snd e))
          | _, _, _ => Err EUnmodelled
          end
      end
  end.
(** The files [a] and [b], and [e] if there is one, are written. *)
Definition written (t a b : str) (e : option str) : bool :=
  match three_files t with
  | Err _ => false
  | Ok (a', b', e') => str_eqb a' a && str_eqb b' b && match e with Some e => str_eqb e' e | None => true end
  end.

(** The comparison of compare_na.py with binary64. *)
Local Instance BCmp : CmpOps b64 := {|
  num_eqb := SFeqb; num_ltb := SFltb; num_div := SFdiv b_prec b_emax; num_sub := SFsub b_prec b_emax;
  num_zero := b_of_Z 0; num_one := b_of_Z 1; num_tiny := bf "0.000000001"; num_thr := bf "0.01" |}.
Definition says_same (r : Res (option bool)) : bool := match r with Ok (Some b) => b | _ => false end.
(** tests/test_na_file.py:53-58: the file read and the first file written are the
    same approximately, the file read and the second file are the same. *)
Definition compared (t a b : str) : bool :=
  says_same (compNAFiles (num := b64) (lit "N.na") t a true true true true None None) &&
  says_same (compNAFiles (num := b64) (lit "N.na") t b true true true false None (Some (lit ","))).

(** ** 1001 *)
(** tests/testdata/1001.na *)
Definition na_1001 : str := text
  ["25    1001";
   "Bryan Lawrence";
   "Physics and Astronomy, University of Canterbury";
   "Data:    NZMS Radiosonde Ascent";
   "Project: Gravity Wave Processes and their Role in Climate";
   "       1       1";
   "  2000     9    20  2003     4    10";
   "      10";
   "Time in UT Seconds from 0000 hours on the data date";
   "       3";
   " 0.1 1.0 0.1";
   "  -1 -1  -1";
   "Ascent Rate (m/s)";
   "Height above MSL (m)";
   "Pressure (hPa)";
   "       0";
   "       8";
   "Location : 36.79 S 174.63 E     30 m";
   "RS-number: 002104615";
   "Ground check  :    Ref     RS   Corr";
   "  Pressure    : 1018.0 1017.6    0.4";
   "  Temperature :   21.6   21.8   -0.2";
   "  Humidity    :      0      1     -1";
   "   uts asrat  hght press  ";
   "     s   m/s     m   hPa ";
   " 79200     0    30 10176  ";
   " 79210    44    74 10125  ";
   " 79220    37   105 10088  ";
   ""]%pylit.
(** tests/test_outputs/test_1001.na *)
Definition out_1001 : str := text
  ["25    1001";
   "Bryan Lawrence";
   "Physics and Astronomy, University of Canterbury";
   "Data:    NZMS Radiosonde Ascent";
   "Project: Gravity Wave Processes and their Role in Climate";
   "1    1";
   "2000 9 20    2003 4 10";
   "10.0";
   "Time in UT Seconds from 0000 hours on the data date";
   "3";
   "0.1    1.0    0.1";
   "-1.0    -1.0    -1.0";
   "Ascent Rate (m/s)";
   "Height above MSL (m)";
   "Pressure (hPa)";
   "0";
   "8";
   "Location : 36.79 S 174.63 E     30 m";
   "RS-number: 002104615";
   "Ground check  :    Ref     RS   Corr";
   "Pressure    : 1018.0 1017.6    0.4";
   "Temperature :   21.6   21.8   -0.2";
   "Humidity    :      0      1     -1";
   "uts asrat  hght press";
   "s   m/s     m   hPa";
   "79200    0    30    10176";
   "79210    44    74    10125";
   "79220    37    105    10088";
   ""]%pylit.
(** tests/test_outputs/test_1001.csv *)
Definition csv_1001 : str := text
  ["25,1001";
   "Bryan Lawrence";
   "Physics and Astronomy, University of Canterbury";
   "Data:    NZMS Radiosonde Ascent";
   "Project: Gravity Wave Processes and their Role in Climate";
   "1,1";
   "2000 9 20,2003 4 10";
   "10.0";
   "Time in UT Seconds from 0000 hours on the data date";
   "3";
   "0.1,1.0,0.1";
   "-1.0,-1.0,-1.0";
   "Ascent Rate (m/s)";
   "Height above MSL (m)";
   "Pressure (hPa)";
   "0";
   "8";
   "Location : 36.79 S 174.63 E     30 m";
   "RS-number: 002104615";
   "Ground check  :    Ref     RS   Corr";
   "Pressure    : 1018.0 1017.6    0.4";
   "Temperature :   21.6   21.8   -0.2";
   "Humidity    :      0      1     -1";
   "uts asrat  hght press";
   "s   m/s     m   hPa";
   "79200.000000,0.000000,30.000000,10176.000000";
   "79210.000000,44.000000,74.000000,10125.000000";
   "79220.000000,37.000000,105.000000,10088.000000";
   ""]%pylit.
(** tests/test_outputs/test_1001_annotated.csv *)
Definition annotated_1001 : str := text
  ["Number of header lines; NASA Ames sub-format code,25,1001";
   "Name of data creator,Bryan Lawrence";
   "Institute of data creator,Physics and Astronomy, University of Canterbury";
   "Instrument or model name,Data:    NZMS Radiosonde Ascent";
   "Project name,Project: Gravity Wave Processes and their Role in Climate";
   "File number; Total number of files,1,1";
   "Starting date of data (YYYY MM DD); File creation date (YYYY MM DD),2000 9 20,2003 4 10";
   "Interval between coordinate variable values (zero if not used),10.0";
   "Name of coordinate variable (with units),Time in UT Seconds from 0000 hours on the data date";
   "Number of primary variables defined,3";
   "Scale factors for each primary variable,0.1,1.0,0.1";
   "Missing values for each primary variable,-1.0,-1.0,-1.0";
   "Name of primary variable (with units) 1,Ascent Rate (m/s)";
   "Name of primary variable (with units) 2,Height above MSL (m)";
   "Name of primary variable (with units) 3,Pressure (hPa)";
   "Number of lines of special comments,0";
   "Number of lines of normal comments,8";
   "Normal comments line 1,Location : 36.79 S 174.63 E     30 m";
   "Normal comments line 2,RS-number: 002104615";
   "Normal comments line 3,Ground check  :    Ref     RS   Corr";
   "Normal comments line 4,Pressure    : 1018.0 1017.6    0.4";
   "Normal comments line 5,Temperature :   21.6   21.8   -0.2";
   "Normal comments line 6,Humidity    :      0      1     -1";
   "Normal comments line 7,uts asrat  hght press";
   "Normal comments line 8,s   m/s     m   hPa";
   "Data section,79200,0,30,10176";
   "Data section,79210,44,74,10125";
   "Data section,79220,37,105,10088";
   ""]%pylit.
Example recorded_1001 : written na_1001 out_1001 csv_1001 (Some annotated_1001) = true.
Proof. vm_compute. reflexivity. Qed.
Example compared_1001 : compared na_1001 out_1001 csv_1001 = true.
Proof. vm_compute. reflexivity. Qed.
(** tests/testdata/1001_cb.na and tests/test_outputs/test_1001_cb_rewritten.na: the
    same with annotations in braces. *)
Definition na_1001_cb : str := text
  ["25    1001	{NLHEAD FFI}";
   "Bryan Lawrence";
   "Physics and Astronomy, University of Canterbury		{INFO}	";
   "Data:    NZMS Radiosonde Ascent";
   "Project: Gravity Wave Processes and their Role in Climate";
   "       1       1	{IVOL NVOL}";
   "  2000     9    20  2003     4    10";
   "      10";
   "Time in UT Seconds from 0000 hours on the data date";
   "       3		{NV}";
   " 0.1 1.0 0.1";
   "  -1 -1  -1";
   "Ascent Rate (m/s)";
   "Height above MSL (m)";
   "Pressure (hPa)";
   "       0                                   {NNCOML}";
   "       8";
   "Location : 36.79 S 174.63 E     30 m";
   "RS-number: 002104615";
   "Ground check  :    Ref     RS   Corr";
   "  Pressure    : 1018.0 1017.6    0.4";
   "  Temperature :   21.6   21.8   -0.2";
   "  Humidity    :      0      1     -1";
   "   uts asrat  hght press  ";
   "     s   m/s     m   hPa ";
   " 79200     0    30 10176  ";
   " 79210    44    74 10125  ";
   " 79220    37   105 10088  ";
   ""]%pylit.
Example recorded_1001_cb : written na_1001_cb out_1001 csv_1001 (Some annotated_1001) = true.
Proof. vm_compute. reflexivity. Qed.

(** ** 1010 *)
(** tests/testdata/1010.na *)
Definition na_1010 : str := text
  ["45  1010";
   "De Rudder, Anne";
   "Rutherford Appleton Laboratory, Chilton OX11 0QX, UK - Tel.: +44 (0) 1235 445837";
   "BISA 1-D atmospheric model";
   "NERC Data Grid (NDG) project";
   "3  13";
   "1976 01 01  2002 10 30";
   "5";
   "Altitude (km)";
   "4";
   "1.E+12  1.E+06  1.E+04  1";
   "1.E+08  1.E+08  1.E+08  10000";
   "Molecular oxygen concentration (cm-3)";
   "Ozone concentration (cm-3)";
   "O(3P) concentration (cm-3)";
   "O(1D) concentration (cm-3)";
   "2";
   "1      1.E+12";
   "10000  1.E+08";
   "Pressure (hPa)";
   "Air concentration (cm-3)";
   "10";
   "Example of FFI 1010.";
   "This example illustrating NASA Ames file format index 1010 combines the US Standard";
   "Atmosphere 1976 (for the auxiliary variables Pressure and Air Concentration) and some";
   "results of a 1-D model (for the dependent variables - oxygen compounds concentrations),";
   "as quoted in G. Brasseur and S. Solomon, Aeronomy of the Middle Atmosphere,";
   "Reidel, 1984 (pp. 46 & 211). The first date on line 7 (1st of January 1976) is fictitious";
   "since the parameters are yearly averages. We have signalled the absence of calculated";
   "value at 30 km by using the ""missing value"" flags (see line 12). The missing value flag";
   "is also used to give account for the fact that there is virtually no O(1D) present below";
   "the altitude of 20 km.";
   "12";
   "The files included in this data set illustrate each of the 9 NASA Ames file format indices";
   "(FFI). A detailed description of the NASA Ames format can be found on the Web site of the";
   "British Atmospheric Data Centre (BADC) at http://www.badc.rl.ac.uk/help/formats/NASA-Ames/";
   "E-mail contact: badc@rl.ac.uk";
   "Reference: S. E. Gaines and R. S. Hipskind, Format Specification for Data Exchange,";
   "Version 1.3, 1998. The work referenced above can be found at";
   "http://cloud1.arc.nasa.gov/solve/archiv/archive.tutorial.html and a copy of it at";
   "http://www.badc.rl.ac.uk/help/formats/NASA-Ames/G-and-H-June-1998.html";
   "";
   "Altitude (km) Pressure (mb)    [M] (cm-3)                 < 2 auxiliary dependent variables >";
   "    O2 (cm-3)     O3 (cm-3)  O(3P) (cm-3)  O(1D) (cm-3)   < 4 primary dependent variables >";
   "";
   "            10         265.0      8.61E+06";
   "       1.7E+06       1.0E+06           1.3         10000";
   "            15         121.1      4.04E+06";
   "       8.1E+05       1.1E+06           5.5         10000";
   "            20          55.3      1.85E+06";
   "       3.6E+05       2.9E+06            94           0.9";
   "            25          25.5      8.33E+05";
   "       1.6E+05       3.2E+06           670             5";
   "            30          12.0      3.83E+05";
   "       1.0E+08       1.0E+08        1.E+08         10000";
   "            35           5.7      1.74E+05";
   "       3.5E+04       2.0E+06       2.4E+04           100";
   "            40           2.3      6.67E+04";
   "       1.7E+04       1.0E+06       1.2E+05           330";
   "            45           1.5      4.12E+04";
   "          8900       3.2E+05       3.7E+05           600";
   "            50           0.8      2.14E+04";
   "          4800       1.0E+05       6.5E+05           610";
   "            55          0.43      1.19E+04";
   "          2600       3.2E+04       8.4E+05           440";
   "            60          0.22          6450";
   "          1500          1000       6.5E+05           260";
   "            65          0.11          3420";
   "           820          3200       5.0E+05           150";
   "            70         0.052          1710";
   "           420          1000       4.0E+05            96";
   "            75         0.024           836";
   "           200           320       3.8E+05            67";
   "            80         0.011           403";
   "            90           140       1.4E+06            70";
   "            85       4.5E-03           172";
   "            37           100       3.0E+06           120";
   "            90       1.8E-03          69.8";
   "          12.5           110       3.0E+07           420";
   "            95       7.6E-04          29.3";
   "           4.7            13       3.3E+07           490";
   "           100       3.2E-04          11.9";
   "           1.9           1.7       3.2E+07          1200";
   ""]%pylit.
(** tests/test_outputs/test_1010.na *)
Definition out_1010 : str := text
  ["45    1010";
   "De Rudder, Anne";
   "Rutherford Appleton Laboratory, Chilton OX11 0QX, UK - Tel.: +44 (0) 1235 445837";
   "BISA 1-D atmospheric model";
   "NERC Data Grid (NDG) project";
   "3    13";
   "1976 1 1    2002 10 30";
   "5.0 ";
   "Altitude (km)";
   "4";
   "1000000000000.0    1000000.0    10000.0    1.0";
   "100000000.0    100000000.0    100000000.0    10000.0";
   "Molecular oxygen concentration (cm-3)";
   "Ozone concentration (cm-3)";
   "O(3P) concentration (cm-3)";
   "O(1D) concentration (cm-3)";
   "2";
   "1.0    1000000000000.0";
   "10000.0    100000000.0";
   "Pressure (hPa)";
   "Air concentration (cm-3)";
   "10";
   "Example of FFI 1010.";
   "This example illustrating NASA Ames file format index 1010 combines the US Standard";
   "Atmosphere 1976 (for the auxiliary variables Pressure and Air Concentration) and some";
   "results of a 1-D model (for the dependent variables - oxygen compounds concentrations),";
   "as quoted in G. Brasseur and S. Solomon, Aeronomy of the Middle Atmosphere,";
   "Reidel, 1984 (pp. 46 & 211). The first date on line 7 (1st of January 1976) is fictitious";
   "since the parameters are yearly averages. We have signalled the absence of calculated";
   "value at 30 km by using the ""missing value"" flags (see line 12). The missing value flag";
   "is also used to give account for the fact that there is virtually no O(1D) present below";
   "the altitude of 20 km.";
   "12";
   "The files included in this data set illustrate each of the 9 NASA Ames file format indices";
   "(FFI). A detailed description of the NASA Ames format can be found on the Web site of the";
   "British Atmospheric Data Centre (BADC) at http://www.badc.rl.ac.uk/help/formats/NASA-Ames/";
   "E-mail contact: badc@rl.ac.uk";
   "Reference: S. E. Gaines and R. S. Hipskind, Format Specification for Data Exchange,";
   "Version 1.3, 1998. The work referenced above can be found at";
   "http://cloud1.arc.nasa.gov/solve/archiv/archive.tutorial.html and a copy of it at";
   "http://www.badc.rl.ac.uk/help/formats/NASA-Ames/G-and-H-June-1998.html";
   "";
   "Altitude (km) Pressure (mb)    [M] (cm-3)                 < 2 auxiliary dependent variables >";
   "O2 (cm-3)     O3 (cm-3)  O(3P) (cm-3)  O(1D) (cm-3)   < 4 primary dependent variables >";
   "";
   "10    265    8610000";
   "1700000    1000000    1.3    10000";
   "15    121.1    4040000";
   "810000    1100000    5.5    10000";
   "20    55.3    1850000";
   "360000    2900000    94    0.9";
   "25    25.5    833000";
   "160000    3200000    670    5";
   "30    12    383000";
   "100000000    100000000    100000000    10000";
   "35    5.7    174000";
   "35000    2000000    24000    100";
   "40    2.3    66700";
   "17000    1000000    120000    330";
   "45    1.5    41200";
   "8900    320000    370000    600";
   "50    0.8    21400";
   "4800    100000    650000    610";
   "55    0.43    11900";
   "2600    32000    840000    440";
   "60    0.22    6450";
   "1500    1000    650000    260";
   "65    0.11    3420";
   "820    3200    500000    150";
   "70    0.052    1710";
   "420    1000    400000    96";
   "75    0.024    836";
   "200    320    380000    67";
   "80    0.011    403";
   "90    140    1400000    70";
   "85    0.0045    172";
   "37    100    3000000    120";
   "90    0.0018    69.8";
   "12.5    110    30000000    420";
   "95    0.00076    29.3";
   "4.7    13    33000000    490";
   "100    0.00032    11.9";
   "1.9    1.7    32000000    1200";
   ""]%pylit.
(** tests/test_outputs/test_1010.csv *)
Definition csv_1010 : str := text
  ["45,1010";
   "De Rudder, Anne";
   "Rutherford Appleton Laboratory, Chilton OX11 0QX, UK - Tel.: +44 (0) 1235 445837";
   "BISA 1-D atmospheric model";
   "NERC Data Grid (NDG) project";
   "3,13";
   "1976 1 1,2002 10 30";
   "5.0 ";
   "Altitude (km)";
   "4";
   "1000000000000.0,1000000.0,10000.0,1.0";
   "100000000.0,100000000.0,100000000.0,10000.0";
   "Molecular oxygen concentration (cm-3)";
   "Ozone concentration (cm-3)";
   "O(3P) concentration (cm-3)";
   "O(1D) concentration (cm-3)";
   "2";
   "1.0,1000000000000.0";
   "10000.0,100000000.0";
   "Pressure (hPa)";
   "Air concentration (cm-3)";
   "10";
   "Example of FFI 1010.";
   "This example illustrating NASA Ames file format index 1010 combines the US Standard";
   "Atmosphere 1976 (for the auxiliary variables Pressure and Air Concentration) and some";
   "results of a 1-D model (for the dependent variables - oxygen compounds concentrations),";
   "as quoted in G. Brasseur and S. Solomon, Aeronomy of the Middle Atmosphere,";
   "Reidel, 1984 (pp. 46 & 211). The first date on line 7 (1st of January 1976) is fictitious";
   "since the parameters are yearly averages. We have signalled the absence of calculated";
   "value at 30 km by using the ""missing value"" flags (see line 12). The missing value flag";
   "is also used to give account for the fact that there is virtually no O(1D) present below";
   "the altitude of 20 km.";
   "12";
   "The files included in this data set illustrate each of the 9 NASA Ames file format indices";
   "(FFI). A detailed description of the NASA Ames format can be found on the Web site of the";
   "British Atmospheric Data Centre (BADC) at http://www.badc.rl.ac.uk/help/formats/NASA-Ames/";
   "E-mail contact: badc@rl.ac.uk";
   "Reference: S. E. Gaines and R. S. Hipskind, Format Specification for Data Exchange,";
   "Version 1.3, 1998. The work referenced above can be found at";
   "http://cloud1.arc.nasa.gov/solve/archiv/archive.tutorial.html and a copy of it at";
   "http://www.badc.rl.ac.uk/help/formats/NASA-Ames/G-and-H-June-1998.html";
   "";
   "Altitude (km) Pressure (mb)    [M] (cm-3)                 < 2 auxiliary dependent variables >";
   "O2 (cm-3)     O3 (cm-3)  O(3P) (cm-3)  O(1D) (cm-3)   < 4 primary dependent variables >";
   "";
   "10.000000,265.000000,8610000.000000";
   "1700000.000000,1000000.000000,1.300000,10000.000000";
   "15.000000,121.100000,4040000.000000";
   "810000.000000,1100000.000000,5.500000,10000.000000";
   "20.000000,55.300000,1850000.000000";
   "360000.000000,2900000.000000,94.000000,0.900000";
   "25.000000,25.500000,833000.000000";
   "160000.000000,3200000.000000,670.000000,5.000000";
   "30.000000,12.000000,383000.000000";
   "100000000.000000,100000000.000000,100000000.000000,10000.000000";
   "35.000000,5.700000,174000.000000";
   "35000.000000,2000000.000000,24000.000000,100.000000";
   "40.000000,2.300000,66700.000000";
   "17000.000000,1000000.000000,120000.000000,330.000000";
   "45.000000,1.500000,41200.000000";
   "8900.000000,320000.000000,370000.000000,600.000000";
   "50.000000,0.800000,21400.000000";
   "4800.000000,100000.000000,650000.000000,610.000000";
   "55.000000,0.430000,11900.000000";
   "2600.000000,32000.000000,840000.000000,440.000000";
   "60.000000,0.220000,6450.000000";
   "1500.000000,1000.000000,650000.000000,260.000000";
   "65.000000,0.110000,3420.000000";
   "820.000000,3200.000000,500000.000000,150.000000";
   "70.000000,0.052000,1710.000000";
   "420.000000,1000.000000,400000.000000,96.000000";
   "75.000000,0.024000,836.000000";
   "200.000000,320.000000,380000.000000,67.000000";
   "80.000000,0.011000,403.000000";
   "90.000000,140.000000,1400000.000000,70.000000";
   "85.000000,0.004500,172.000000";
   "37.000000,100.000000,3000000.000000,120.000000";
   "90.000000,0.001800,69.800000";
   "12.500000,110.000000,30000000.000000,420.000000";
   "95.000000,0.000760,29.300000";
   "4.700000,13.000000,33000000.000000,490.000000";
   "100.000000,0.000320,11.900000";
   "1.900000,1.700000,32000000.000000,1200.000000";
   ""]%pylit.
Example recorded_1010 : written na_1010 out_1010 csv_1010 None = true.
Proof. vm_compute. reflexivity. Qed.
Example compared_1010 : compared na_1010 out_1010 csv_1010 = true.
Proof. vm_compute. reflexivity. Qed.

(** ** 1020 *)
(** tests/testdata/1020.na *)
Definition na_1020 : str := text
  ["44  1020";
   "De Rudder, Anne";
   "Rutherford Appleton Laboratory, Chilton OX11 0QX, UK - Tel.: +44 (0) 1235 445837";
   "BISA 1-D stratospheric model";
   "NERC Data Grid (NDG) project";
   "4  13";
   "1976 01 01  2002 10 30";
   "5";
   "10";
   "Altitude (km)";
   "4";
   "1.E+12   1.E+06   1.E+04   1";
   "1.E+08   1.E+08   1.E+08   10000";
   "Molecular oxygen concentration (cm-3)";
   "Ozone concentration (cm-3)";
   "O(3P) concentration (cm-3)";
   "O(1D) concentration (cm-3)";
   "2";
   "1        1.E+12";
   "10000    1.E+08";
   "Pressure (hPa)";
   "Air concentration (cm-3)";
   "11";
   "Example of FFI 1020 (a).";
   "This example illustrating NASA Ames file format index 1020 combines the US Standard";
   "Atmosphere 1976 (for the auxiliary variables Pressure and Air Concentration) and some";
   "results of a 1-D model (for the dependent variables - oxygen compounds concentrations),";
   "as quoted in G. Brasseur and S. Solomon, Aeronomy of the Middle Atmosphere, Reidel,";
   "1984 (pp. 46 & 211). The first date on line 7 (1st of January 1976) is fictitious since";
   "the parameters are yearly averages. We have signalled the absence of calculated values at";
   "30 and 105 km by using the ""missing value"" flags (see line 13). The missing value flag";
   "is also used to give account for the fact that there is virtually no O(1D) present below";
   "the altitude of 20 km. Note that the data are identical as the data contained in the";
   "example illustrating FFI 1010, but in a more compact format.";
   "9";
   "The files included in this data set illustrate each of the 9 NASA Ames file format indices";
   "(FFI). A detailed description of the NASA Ames format can be found on the Web site of the";
   "British Atmospheric Data Centre (BADC) at http://www.badc.rl.ac.uk/help/formats/NASA-Ames/";
   "E-mail contact: badc@rl.ac.uk";
   "Reference: S. E. Gaines and R. S. Hipskind, Format Specification for Data Exchange,";
   "Version 1.3, 1998. This work can be found at";
   "http://cloud1.arc.nasa.gov/solve/archiv/archive.tutorial.html and a copy of it at";
   "http://www.badc.rl.ac.uk/help/formats/NASA-Ames/G-and-H-June-1998.html";
   "";
   "       10    265.0 8.61E+06";
   "  1.7E+06  8.1E+05  3.6E+05  1.6E+05  1.0E+08  3.5E+04  1.7E+04     8900     4800     2600";
   "  1.0E+06  1.1E+06  2.9E+06  3.2E+06  1.0E+08  2.0E+06  1.0E+06  3.2E+05  1.0E+05  3.2E+04";
   "      1.3      5.5       94      670  1.0E+08  2.4E+04  1.2E+05  3.7E+05  6.5E+05  8.4E+05";
   "    10000    10000      0.9        5    10000      100      330      600      610      440";
   "       60     0.22     6450";
   "     1500      820      420      200       90       37     12.5      4.7      1.9   1.E+08";
   "     1000     3200     1000      320      140      100      110       13      1.7   1.E+08";
   "  6.5E+05  5.0E+05  4.0E+05  3.8E+05  1.4E+06  3.0E+06  3.0E+07  3.3E+07  3.2E+07   1.E+08";
   "      260      150       96       67       70      120      420      490     1200    10000";
   ""]%pylit.
(** tests/test_outputs/test_1020.na *)
Definition out_1020 : str := text
  ["44    1020";
   "De Rudder, Anne";
   "Rutherford Appleton Laboratory, Chilton OX11 0QX, UK - Tel.: +44 (0) 1235 445837";
   "BISA 1-D stratospheric model";
   "NERC Data Grid (NDG) project";
   "4    13";
   "1976 1 1    2002 10 30";
   "5.0 ";
   "10";
   "Altitude (km)";
   "4";
   "1000000000000.0    1000000.0    10000.0    1.0";
   "100000000.0    100000000.0    100000000.0    10000.0";
   "Molecular oxygen concentration (cm-3)";
   "Ozone concentration (cm-3)";
   "O(3P) concentration (cm-3)";
   "O(1D) concentration (cm-3)";
   "2";
   "1.0    1000000000000.0";
   "10000.0    100000000.0";
   "Pressure (hPa)";
   "Air concentration (cm-3)";
   "11";
   "Example of FFI 1020 (a).";
   "This example illustrating NASA Ames file format index 1020 combines the US Standard";
   "Atmosphere 1976 (for the auxiliary variables Pressure and Air Concentration) and some";
   "results of a 1-D model (for the dependent variables - oxygen compounds concentrations),";
   "as quoted in G. Brasseur and S. Solomon, Aeronomy of the Middle Atmosphere, Reidel,";
   "1984 (pp. 46 & 211). The first date on line 7 (1st of January 1976) is fictitious since";
   "the parameters are yearly averages. We have signalled the absence of calculated values at";
   "30 and 105 km by using the ""missing value"" flags (see line 13). The missing value flag";
   "is also used to give account for the fact that there is virtually no O(1D) present below";
   "the altitude of 20 km. Note that the data are identical as the data contained in the";
   "example illustrating FFI 1010, but in a more compact format.";
   "9";
   "The files included in this data set illustrate each of the 9 NASA Ames file format indices";
   "(FFI). A detailed description of the NASA Ames format can be found on the Web site of the";
   "British Atmospheric Data Centre (BADC) at http://www.badc.rl.ac.uk/help/formats/NASA-Ames/";
   "E-mail contact: badc@rl.ac.uk";
   "Reference: S. E. Gaines and R. S. Hipskind, Format Specification for Data Exchange,";
   "Version 1.3, 1998. This work can be found at";
   "http://cloud1.arc.nasa.gov/solve/archiv/archive.tutorial.html and a copy of it at";
   "http://www.badc.rl.ac.uk/help/formats/NASA-Ames/G-and-H-June-1998.html";
   "";
   "10    265    8610000";
   "1700000    810000    360000    160000    100000000    35000    17000    8900    4800    2600";
   "1000000    1100000    2900000    3200000    100000000    2000000    1000000    320000    100000    32000";
   "1.3    5.5    94    670    100000000    24000    120000    370000    650000    840000";
   "10000    10000    0.9    5    10000    100    330    600    610    440";
   "60    0.22    6450";
   "1500    820    420    200    90    37    12.5    4.7    1.9    100000000";
   "1000    3200    1000    320    140    100    110    13    1.7    100000000";
   "650000    500000    400000    380000    1400000    3000000    30000000    33000000    32000000    100000000";
   "260    150    96    67    70    120    420    490    1200    10000";
   ""]%pylit.
(** tests/test_outputs/test_1020.csv *)
Definition csv_1020 : str := text
  ["44,1020";
   "De Rudder, Anne";
   "Rutherford Appleton Laboratory, Chilton OX11 0QX, UK - Tel.: +44 (0) 1235 445837";
   "BISA 1-D stratospheric model";
   "NERC Data Grid (NDG) project";
   "4,13";
   "1976 1 1,2002 10 30";
   "5.0 ";
   "10";
   "Altitude (km)";
   "4";
   "1000000000000.0,1000000.0,10000.0,1.0";
   "100000000.0,100000000.0,100000000.0,10000.0";
   "Molecular oxygen concentration (cm-3)";
   "Ozone concentration (cm-3)";
   "O(3P) concentration (cm-3)";
   "O(1D) concentration (cm-3)";
   "2";
   "1.0,1000000000000.0";
   "10000.0,100000000.0";
   "Pressure (hPa)";
   "Air concentration (cm-3)";
   "11";
   "Example of FFI 1020 (a).";
   "This example illustrating NASA Ames file format index 1020 combines the US Standard";
   "Atmosphere 1976 (for the auxiliary variables Pressure and Air Concentration) and some";
   "results of a 1-D model (for the dependent variables - oxygen compounds concentrations),";
   "as quoted in G. Brasseur and S. Solomon, Aeronomy of the Middle Atmosphere, Reidel,";
   "1984 (pp. 46 & 211). The first date on line 7 (1st of January 1976) is fictitious since";
   "the parameters are yearly averages. We have signalled the absence of calculated values at";
   "30 and 105 km by using the ""missing value"" flags (see line 13). The missing value flag";
   "is also used to give account for the fact that there is virtually no O(1D) present below";
   "the altitude of 20 km. Note that the data are identical as the data contained in the";
   "example illustrating FFI 1010, but in a more compact format.";
   "9";
   "The files included in this data set illustrate each of the 9 NASA Ames file format indices";
   "(FFI). A detailed description of the NASA Ames format can be found on the Web site of the";
   "British Atmospheric Data Centre (BADC) at http://www.badc.rl.ac.uk/help/formats/NASA-Ames/";
   "E-mail contact: badc@rl.ac.uk";
   "Reference: S. E. Gaines and R. S. Hipskind, Format Specification for Data Exchange,";
   "Version 1.3, 1998. This work can be found at";
   "http://cloud1.arc.nasa.gov/solve/archiv/archive.tutorial.html and a copy of it at";
   "http://www.badc.rl.ac.uk/help/formats/NASA-Ames/G-and-H-June-1998.html";
   "";
   "10.000000,265.000000,8610000.000000";
   "1700000.000000,810000.000000,360000.000000,160000.000000,100000000.000000,35000.000000,17000.000000,8900.000000,4800.000000,2600.000000";
   "1000000.000000,1100000.000000,2900000.000000,3200000.000000,100000000.000000,2000000.000000,1000000.000000,320000.000000,100000.000000,32000.000000";
   "1.300000,5.500000,94.000000,670.000000,100000000.000000,24000.000000,120000.000000,370000.000000,650000.000000,840000.000000";
   "10000.000000,10000.000000,0.900000,5.000000,10000.000000,100.000000,330.000000,600.000000,610.000000,440.000000";
   "60.000000,0.220000,6450.000000";
   "1500.000000,820.000000,420.000000,200.000000,90.000000,37.000000,12.500000,4.700000,1.900000,100000000.000000";
   "1000.000000,3200.000000,1000.000000,320.000000,140.000000,100.000000,110.000000,13.000000,1.700000,100000000.000000";
   "650000.000000,500000.000000,400000.000000,380000.000000,1400000.000000,3000000.000000,30000000.000000,33000000.000000,32000000.000000,100000000.000000";
   "260.000000,150.000000,96.000000,67.000000,70.000000,120.000000,420.000000,490.000000,1200.000000,10000.000000";
   ""]%pylit.
Example recorded_1020 : written na_1020 out_1020 csv_1020 None = true.
Proof. vm_compute. reflexivity. Qed.
Example compared_1020 : compared na_1020 out_1020 csv_1020 = true.
Proof. vm_compute. reflexivity. Qed.

(** ** 2010 *)
(** tests/testdata/2010.na *)
Definition na_2010 : str := text
  ["43  2010";
   "De Rudder, Anne";
   "Rutherford Appleton Laboratory, Chilton OX11 0QX, UK - Tel.: +44 (0) 1235 445837";
   "Anemometer measurements averaged over longitude";
   "NERC Data Grid (NDG) project";
   "7  13";
   "1969 01 01  2002 10 31";
   "10  20";
   "9";
   "1";
   "0";
   "Latitude (degrees North)";
   "Altitude (km)";
   "1";
   "1";
   "200";
   "Mean zonal wind (m/s)";
   "1";
   "1";
   "2000";
   "Pressure (hPa)";
   "9";
   "Example of FFI 2010 (b).";
   "This example illustrating NASA Ames file format index 2010 is based on results";
   "from Murgatroyd (1969) as displayed in Brasseur and Solomon, Aeronomy of the";
   "Middle Atmosphere, Reidel, 1984 (p.36). It is representative of the mean zonal";
   "wind distribution in the winter hemisphere as a function of latitude and height.";
   "The first date on line 7 (1st of January 1969) is fictitious.";
   "From line 10 (NXDEF = 1) we know that the latitude points are defined by";
   "X(i) = X(1) + (i-1)DX1 for i = 1, ..., NX";
   "with X(1) = 0 deg (line 11), DX1 = 10 deg (line 8) and NX = 9 (line 9).";
   "11";
   "The files included in this data set illustrate each of the 9 NASA Ames file";
   "format indices (FFI). A detailed description of the NASA Ames format can be";
   "found on the Web site of the British Atmospheric Data Centre (BADC) at";
   "http://www.badc.rl.ac.uk/help/formats/NASA-Ames/";
   "E-mail contact: badc@rl.ac.uk";
   "Reference: S. E. Gaines and R. S. Hipskind, Format Specification for Data";
   "Exchange, Version 1.3, 1998. This work can be found at";
   "http://cloud1.arc.nasa.gov/solve/archiv/archive.tutorial.html";
   "and a copy of it at";
   "http://www.badc.rl.ac.uk/help/formats/NASA-Ames/G-and-H-June-1998.html";
   "";
   "        0   1013.3";
   "     -3.0     -2.6     -2.3      2.0      4.8      4.6      4.5      3.0     -0.9";
   "       20    55.30";
   "    -15.1     -4.2      6.9     12.8     14.7     20.0     21.5     18.0      8.2";
   "       40     2.30";
   "    -29.0    -15.2      3.4     28.2     41.0     39.1     17.9      8.0      0.1";
   "       60     0.22";
   "    -10.0      8.4     31.2     59.9     78.5     77.7     47.0     17.6     16.0";
   "       80     0.01";
   "    200.0    200.0    200.0    200.0    200.0    200.0    200.0    200.0    200.0";
   ""]%pylit.
(** tests/test_outputs/test_2010.na *)
Definition out_2010 : str := text
  ["43    2010";
   "De Rudder, Anne";
   "Rutherford Appleton Laboratory, Chilton OX11 0QX, UK - Tel.: +44 (0) 1235 445837";
   "Anemometer measurements averaged over longitude";
   "NERC Data Grid (NDG) project";
   "7    13";
   "1969 1 1    2002 10 31";
   "10.0    20.0";
   "9";
   "1";
   "0";
   "Latitude (degrees North)";
   "Altitude (km)";
   "1";
   "1.0";
   "200.0";
   "Mean zonal wind (m/s)";
   "1";
   "1.0";
   "2000.0";
   "Pressure (hPa)";
   "9";
   "Example of FFI 2010 (b).";
   "This example illustrating NASA Ames file format index 2010 is based on results";
   "from Murgatroyd (1969) as displayed in Brasseur and Solomon, Aeronomy of the";
   "Middle Atmosphere, Reidel, 1984 (p.36). It is representative of the mean zonal";
   "wind distribution in the winter hemisphere as a function of latitude and height.";
   "The first date on line 7 (1st of January 1969) is fictitious.";
   "From line 10 (NXDEF = 1) we know that the latitude points are defined by";
   "X(i) = X(1) + (i-1)DX1 for i = 1, ..., NX";
   "with X(1) = 0 deg (line 11), DX1 = 10 deg (line 8) and NX = 9 (line 9).";
   "11";
   "The files included in this data set illustrate each of the 9 NASA Ames file";
   "format indices (FFI). A detailed description of the NASA Ames format can be";
   "found on the Web site of the British Atmospheric Data Centre (BADC) at";
   "http://www.badc.rl.ac.uk/help/formats/NASA-Ames/";
   "E-mail contact: badc@rl.ac.uk";
   "Reference: S. E. Gaines and R. S. Hipskind, Format Specification for Data";
   "Exchange, Version 1.3, 1998. This work can be found at";
   "http://cloud1.arc.nasa.gov/solve/archiv/archive.tutorial.html";
   "and a copy of it at";
   "http://www.badc.rl.ac.uk/help/formats/NASA-Ames/G-and-H-June-1998.html";
   "";
   "0    1013.3";
   "-3    -2.6    -2.3    2    4.8    4.6    4.5    3    -0.9";
   "20    55.3";
   "-15.1    -4.2    6.9    12.8    14.7    20    21.5    18    8.2";
   "40    2.3";
   "-29    -15.2    3.4    28.2    41    39.1    17.9    8    0.1";
   "60    0.22";
   "-10    8.4    31.2    59.9    78.5    77.7    47    17.6    16";
   "80    0.01";
   "200    200    200    200    200    200    200    200    200";
   ""]%pylit.
(** tests/test_outputs/test_2010.csv *)
Definition csv_2010 : str := text
  ["43,2010";
   "De Rudder, Anne";
   "Rutherford Appleton Laboratory, Chilton OX11 0QX, UK - Tel.: +44 (0) 1235 445837";
   "Anemometer measurements averaged over longitude";
   "NERC Data Grid (NDG) project";
   "7,13";
   "1969 1 1,2002 10 31";
   "20.0,10.0";
   "9";
   "1";
   "0.000000";
   "Latitude (degrees North)";
   "Altitude (km)";
   "1";
   "1.0";
   "200.0";
   "Mean zonal wind (m/s)";
   "1";
   "1.0";
   "2000.0";
   "Pressure (hPa)";
   "9";
   "Example of FFI 2010 (b).";
   "This example illustrating NASA Ames file format index 2010 is based on results";
   "from Murgatroyd (1969) as displayed in Brasseur and Solomon, Aeronomy of the";
   "Middle Atmosphere, Reidel, 1984 (p.36). It is representative of the mean zonal";
   "wind distribution in the winter hemisphere as a function of latitude and height.";
   "The first date on line 7 (1st of January 1969) is fictitious.";
   "From line 10 (NXDEF = 1) we know that the latitude points are defined by";
   "X(i) = X(1) + (i-1)DX1 for i = 1, ..., NX";
   "with X(1) = 0 deg (line 11), DX1 = 10 deg (line 8) and NX = 9 (line 9).";
   "11";
   "The files included in this data set illustrate each of the 9 NASA Ames file";
   "format indices (FFI). A detailed description of the NASA Ames format can be";
   "found on the Web site of the British Atmospheric Data Centre (BADC) at";
   "http://www.badc.rl.ac.uk/help/formats/NASA-Ames/";
   "E-mail contact: badc@rl.ac.uk";
   "Reference: S. E. Gaines and R. S. Hipskind, Format Specification for Data";
   "Exchange, Version 1.3, 1998. This work can be found at";
   "http://cloud1.arc.nasa.gov/solve/archiv/archive.tutorial.html";
   "and a copy of it at";
   "http://www.badc.rl.ac.uk/help/formats/NASA-Ames/G-and-H-June-1998.html";
   "";
   "0.000000,1013.300000";
   "-3.000000,-2.600000,-2.300000,2.000000,4.800000,4.600000,4.500000,3.000000,-0.900000";
   "20.000000,55.300000";
   "-15.100000,-4.200000,6.900000,12.800000,14.700000,20.000000,21.500000,18.000000,8.200000";
   "40.000000,2.300000";
   "-29.000000,-15.200000,3.400000,28.200000,41.000000,39.100000,17.900000,8.000000,0.100000";
   "60.000000,0.220000";
   "-10.000000,8.400000,31.200000,59.900000,78.500000,77.700000,47.000000,17.600000,16.000000";
   "80.000000,0.010000";
   "200.000000,200.000000,200.000000,200.000000,200.000000,200.000000,200.000000,200.000000,200.000000";
   ""]%pylit.
Example recorded_2010 : written na_2010 out_2010 csv_2010 None = true.
Proof. vm_compute. reflexivity. Qed.
Example compared_2010 : compared na_2010 out_2010 csv_2010 = true.
Proof. vm_compute. reflexivity. Qed.

(** ** 2110 *)
(** tests/testdata/2110.na *)
Definition na_2110 : str := text
  ["38  2110";
   "De Rudder, Anne";
   "Rutherford Appleton Laboratory, Chilton OX11 0QX, UK - Tel.: +44 (0) 1235 445837";
   "Anemometer measurements averaged over longitude";
   "NERC Data Grid (NDG) project";
   "9  13";
   "1969 01 01  2002 10 31";
   "0  10";
   "Latitude (degrees North)";
   "Altitude (km)";
   "1";
   "1";
   "200";
   "Mean zonal wind (m/s)";
   "2";
   "1  1";
   "100  2000";
   "Number of latitude points";
   "Pressure (hPa)";
   "6";
   "Example of FFI 2110.";
   "This example illustrating NASA Ames file format index 2110 is based on results";
   "from Murgatroyd (1969) as displayed in Brasseur and Solomon, Aeronomy of the";
   "Middle Atmosphere, Reidel, 1984 (p.36). It is representative of the mean zonal";
   "wind distribution in the winter hemisphere as a function of latitude and height.";
   "The first date on line 7 (1st of January 1969) is fictitious.";
   "11";
   "The files incuded in this data set illustrate each of the 9 NASA Ames file";
   "format indices (FFI). A detailed description of the NASA Ames format can be";
   "found on the Web site of the British Atmospheric Data Centre (BADC) at";
   "http://www.badc.rl.ac.uk/help/formats/NASA-Ames/";
   "E-mail contact: badc@rl.ac.uk";
   "Reference: S. E. Gaines and R. S. Hipskind, Format Specification for Data";
   "Exchange, Version 1.3, 1998. This work can be found at";
   "http://cloud1.arc.nasa.gov/solve/archiv/archive.tutorial.html";
   "and a copy of it at";
   "http://www.badc.rl.ac.uk/help/formats/NASA-Ames/G-and-H-June-1998.html";
   "";
   "0       4        1013.30";
   "    20.0    -2.3";
   "    40.0     4.8";
   "    60.0     4.5";
   "    80.0    -0.9";
   "10      4         265.00";
   "    30.0    31.5";
   "    40.0    28.0";
   "    50.0    21.6";
   "    60.0    14.9";
   "20      3          55.30";
   "    40.0    14.7";
   "    60.0    21.5";
   "    70.0    18.0";
   "30      7          12.00";
   "    20.0    -9.3";
   "    30.0    -6.8";
   "    40.0    15.0";
   "    50.0    22.0";
   "    60.0    22.7";
   "    70.0    18.2";
   "    80.0    12.0";
   "40      5           2.30";
   "     0.0   -29.0";
   "    20.0     3.4";
   "    30.0    28.2";
   "    50.0    39.1";
   "    80.0     0.1";
   "50      8           0.80";
   "     0.0   -21.9";
   "    10.0    -4.0";
   "    20.0    19.9";
   "    30.0    40.8";
   "    40.0    55.0";
   "    50.0    50.1";
   "    60.0    25.0";
   "    70.0     8.1";
   "60      9           0.22";
   "     0.0   -10.0";
   "    10.0     8.4";
   "    20.0    31.2";
   "    30.0    59.9";
   "    40.0    78.5";
   "    50.0    77.7";
   "    60.0    47.0";
   "    70.0    17.6";
   "    80.0    16.0";
   "70      4           0.05";
   "     0.0     1.2";
   "    30.0    63.3";
   "    60.0    61.2";
   "    70.0    35.0";
   ""]%pylit.
(** tests/test_outputs/test_2110.na *)
Definition out_2110 : str := text
  ["38    2110";
   "De Rudder, Anne";
   "Rutherford Appleton Laboratory, Chilton OX11 0QX, UK - Tel.: +44 (0) 1235 445837";
   "Anemometer measurements averaged over longitude";
   "NERC Data Grid (NDG) project";
   "9    13";
   "1969 1 1    2002 10 31";
   "0.0    10.0";
   "Latitude (degrees North)";
   "Altitude (km)";
   "1";
   "1.0";
   "200.0";
   "Mean zonal wind (m/s)";
   "2";
   "1.0    1.0";
   "100.0    2000.0";
   "Number of latitude points";
   "Pressure (hPa)";
   "6";
   "Example of FFI 2110.";
   "This example illustrating NASA Ames file format index 2110 is based on results";
   "from Murgatroyd (1969) as displayed in Brasseur and Solomon, Aeronomy of the";
   "Middle Atmosphere, Reidel, 1984 (p.36). It is representative of the mean zonal";
   "wind distribution in the winter hemisphere as a function of latitude and height.";
   "The first date on line 7 (1st of January 1969) is fictitious.";
   "11";
   "The files incuded in this data set illustrate each of the 9 NASA Ames file";
   "format indices (FFI). A detailed description of the NASA Ames format can be";
   "found on the Web site of the British Atmospheric Data Centre (BADC) at";
   "http://www.badc.rl.ac.uk/help/formats/NASA-Ames/";
   "E-mail contact: badc@rl.ac.uk";
   "Reference: S. E. Gaines and R. S. Hipskind, Format Specification for Data";
   "Exchange, Version 1.3, 1998. This work can be found at";
   "http://cloud1.arc.nasa.gov/solve/archiv/archive.tutorial.html";
   "and a copy of it at";
   "http://www.badc.rl.ac.uk/help/formats/NASA-Ames/G-and-H-June-1998.html";
   "";
   "0    4    1013.3";
   "20    -2.3";
   "40    4.8";
   "60    4.5";
   "80    -0.9";
   "10    4    265";
   "30    31.5";
   "40    28";
   "50    21.6";
   "60    14.9";
   "20    3    55.3";
   "40    14.7";
   "60    21.5";
   "70    18";
   "30    7    12";
   "20    -9.3";
   "30    -6.8";
   "40    15";
   "50    22";
   "60    22.7";
   "70    18.2";
   "80    12";
   "40    5    2.3";
   "0    -29";
   "20    3.4";
   "30    28.2";
   "50    39.1";
   "80    0.1";
   "50    8    0.8";
   "0    -21.9";
   "10    -4";
   "20    19.9";
   "30    40.8";
   "40    55";
   "50    50.1";
   "60    25";
   "70    8.1";
   "60    9    0.22";
   "0    -10";
   "10    8.4";
   "20    31.2";
   "30    59.9";
   "40    78.5";
   "50    77.7";
   "60    47";
   "70    17.6";
   "80    16";
   "70    4    0.05";
   "0    1.2";
   "30    63.3";
   "60    61.2";
   "70    35";
   ""]%pylit.
(** tests/test_outputs/test_2110.csv *)
Definition csv_2110 : str := text
  ["38,2110";
   "De Rudder, Anne";
   "Rutherford Appleton Laboratory, Chilton OX11 0QX, UK - Tel.: +44 (0) 1235 445837";
   "Anemometer measurements averaged over longitude";
   "NERC Data Grid (NDG) project";
   "9,13";
   "1969 1 1,2002 10 31";
   "10.0,0.0";
   "Altitude (km)";
   "Latitude (degrees North)";
   "1";
   "1.0";
   "200.0";
   "Mean zonal wind (m/s)";
   "2";
   "1.0,1.0";
   "100.0,2000.0";
   "Number of latitude points";
   "Pressure (hPa)";
   "6";
   "Example of FFI 2110.";
   "This example illustrating NASA Ames file format index 2110 is based on results";
   "from Murgatroyd (1969) as displayed in Brasseur and Solomon, Aeronomy of the";
   "Middle Atmosphere, Reidel, 1984 (p.36). It is representative of the mean zonal";
   "wind distribution in the winter hemisphere as a function of latitude and height.";
   "The first date on line 7 (1st of January 1969) is fictitious.";
   "11";
   "The files incuded in this data set illustrate each of the 9 NASA Ames file";
   "format indices (FFI). A detailed description of the NASA Ames format can be";
   "found on the Web site of the British Atmospheric Data Centre (BADC) at";
   "http://www.badc.rl.ac.uk/help/formats/NASA-Ames/";
   "E-mail contact: badc@rl.ac.uk";
   "Reference: S. E. Gaines and R. S. Hipskind, Format Specification for Data";
   "Exchange, Version 1.3, 1998. This work can be found at";
   "http://cloud1.arc.nasa.gov/solve/archiv/archive.tutorial.html";
   "and a copy of it at";
   "http://www.badc.rl.ac.uk/help/formats/NASA-Ames/G-and-H-June-1998.html";
   "";
   "0.000000,4.000000,1013.300000";
   "20.000000,-2.300000";
   "40.000000,4.800000";
   "60.000000,4.500000";
   "80.000000,-0.900000";
   "10.000000,4.000000,265.000000";
   "30.000000,31.500000";
   "40.000000,28.000000";
   "50.000000,21.600000";
   "60.000000,14.900000";
   "20.000000,3.000000,55.300000";
   "40.000000,14.700000";
   "60.000000,21.500000";
   "70.000000,18.000000";
   "30.000000,7.000000,12.000000";
   "20.000000,-9.300000";
   "30.000000,-6.800000";
   "40.000000,15.000000";
   "50.000000,22.000000";
   "60.000000,22.700000";
   "70.000000,18.200000";
   "80.000000,12.000000";
   "40.000000,5.000000,2.300000";
   "0.000000,-29.000000";
   "20.000000,3.400000";
   "30.000000,28.200000";
   "50.000000,39.100000";
   "80.000000,0.100000";
   "50.000000,8.000000,0.800000";
   "0.000000,-21.900000";
   "10.000000,-4.000000";
   "20.000000,19.900000";
   "30.000000,40.800000";
   "40.000000,55.000000";
   "50.000000,50.100000";
   "60.000000,25.000000";
   "70.000000,8.100000";
   "60.000000,9.000000,0.220000";
   "0.000000,-10.000000";
   "10.000000,8.400000";
   "20.000000,31.200000";
   "30.000000,59.900000";
   "40.000000,78.500000";
   "50.000000,77.700000";
   "60.000000,47.000000";
   "70.000000,17.600000";
   "80.000000,16.000000";
   "70.000000,4.000000,0.050000";
   "0.000000,1.200000";
   "30.000000,63.300000";
   "60.000000,61.200000";
   "70.000000,35.000000";
   ""]%pylit.
(** tests/test_outputs/test_2110_annotated.csv *)
Definition annotated_2110 : str := text
  ["Number of header lines; NASA Ames sub-format code,38,2110";
   "Name of data creator,De Rudder, Anne";
   "Institute of data creator,Rutherford Appleton Laboratory, Chilton OX11 0QX, UK - Tel.: +44 (0) 1235 445837";
   "Instrument or model name,Anemometer measurements averaged over longitude";
   "Project name,NERC Data Grid (NDG) project";
   "File number; Total number of files,9,13";
   "Starting date of data (YYYY MM DD); File creation date (YYYY MM DD),1969 1 1,2002 10 31";
   "Interval between coordinate variable values (zero if not used),0.0,10.0";
   "Name of coordinate variable (with units) 1,Latitude (degrees North)";
   "Name of coordinate variable (with units) 2,Altitude (km)";
   "Number of primary variables defined,1";
   "Scale factors for each primary variable,1.0";
   "Missing values for each primary variable,200.0";
   "Name of primary variable (with units) 1,Mean zonal wind (m/s)";
   "Number of auxiliary variables,2";
   "Scale factors for each auxiliary variable,1.0,1.0";
   "Missing values for each auxiliary variable,100.0,2000.0";
   "Name of auxiliary variable (with units) 1,Number of latitude points";
   "Name of auxiliary variable (with units) 2,Pressure (hPa)";
   "Number of lines of special comments,6";
   "Special comments line 1,Example of FFI 2110.";
   "Special comments line 2,This example illustrating NASA Ames file format index 2110 is based on results";
   "Special comments line 3,from Murgatroyd (1969) as displayed in Brasseur and Solomon, Aeronomy of the";
   "Special comments line 4,Middle Atmosphere, Reidel, 1984 (p.36). It is representative of the mean zonal";
   "Special comments line 5,wind distribution in the winter hemisphere as a function of latitude and height.";
   "Special comments line 6,The first date on line 7 (1st of January 1969) is fictitious.";
   "Number of lines of normal comments,11";
   "Normal comments line 1,The files incuded in this data set illustrate each of the 9 NASA Ames file";
   "Normal comments line 2,format indices (FFI). A detailed description of the NASA Ames format can be";
   "Normal comments line 3,found on the Web site of the British Atmospheric Data Centre (BADC) at";
   "Normal comments line 4,http://www.badc.rl.ac.uk/help/formats/NASA-Ames/";
   "Normal comments line 5,E-mail contact: badc@rl.ac.uk";
   "Normal comments line 6,Reference: S. E. Gaines and R. S. Hipskind, Format Specification for Data";
   "Normal comments line 7,Exchange, Version 1.3, 1998. This work can be found at";
   "Normal comments line 8,http://cloud1.arc.nasa.gov/solve/archiv/archive.tutorial.html";
   "Normal comments line 9,and a copy of it at";
   "Normal comments line 10,http://www.badc.rl.ac.uk/help/formats/NASA-Ames/G-and-H-June-1998.html";
   "Normal comments line 11,";
   "Data section,0,4,1013.3";
   "Data section,20,-2.3";
   "Data section,40,4.8";
   "Data section,60,4.5";
   "Data section,80,-0.9";
   "Data section,10,4,265";
   "Data section,30,31.5";
   "Data section,40,28";
   "Data section,50,21.6";
   "Data section,60,14.9";
   "Data section,20,3,55.3";
   "Data section,40,14.7";
   "Data section,60,21.5";
   "Data section,70,18";
   "Data section,30,7,12";
   "Data section,20,-9.3";
   "Data section,30,-6.8";
   "Data section,40,15";
   "Data section,50,22";
   "Data section,60,22.7";
   "Data section,70,18.2";
   "Data section,80,12";
   "Data section,40,5,2.3";
   "Data section,0,-29";
   "Data section,20,3.4";
   "Data section,30,28.2";
   "Data section,50,39.1";
   "Data section,80,0.1";
   "Data section,50,8,0.8";
   "Data section,0,-21.9";
   "Data section,10,-4";
   "Data section,20,19.9";
   "Data section,30,40.8";
   "Data section,40,55";
   "Data section,50,50.1";
   "Data section,60,25";
   "Data section,70,8.1";
   "Data section,60,9,0.22";
   "Data section,0,-10";
   "Data section,10,8.4";
   "Data section,20,31.2";
   "Data section,30,59.9";
   "Data section,40,78.5";
   "Data section,50,77.7";
   "Data section,60,47";
   "Data section,70,17.6";
   "Data section,80,16";
   "Data section,70,4,0.05";
   "Data section,0,1.2";
   "Data section,30,63.3";
   "Data section,60,61.2";
   "Data section,70,35";
   ""]%pylit.
Example recorded_2110 : written na_2110 out_2110 csv_2110 (Some annotated_2110) = true.
Proof. vm_compute. reflexivity. Qed.
Example compared_2110 : compared na_2110 out_2110 csv_2110 = true.
Proof. vm_compute. reflexivity. Qed.

(** ** 2160 *)
(** tests/testdata/2160.na *)
Definition na_2160 : str := text
  ["47  2160";
   "De Rudder, Anne";
   "Rutherford Appleton Laboratory, Chilton OX11 0QX, UK - Tel.: +44 (0) 1235 445837";
   "Chemiluminescence NOX analyser. UV absorption API 400 ozone analyser.";
   "NERC Data Grid (NDG) project";
   "10  13";
   "2002 10 10  2002 10 31";
   "10";
   "13";
   "Time (minutes)";
   "Site name";
   "2";
   "1  1";
   "100  100";
   "NOX volume mixing ratio (ppbv)";
   "Ozone volume mixing ratio (ppbv)";
   "5";
   "2";
   "1  1  1";
   "100  1000  1000";
   "10  7";
   "zzzzzzzzzz";
   "zzzzzzz";
   "Number of measurements";
   "Longitude (degrees from Greenwich meridian)";
   "Latitude (degrees North)";
   "Date";
   "Local time at t = 0";
   "7";
   "Example of FFI 2160.";
   "This example illustrating NASA Ames file format index 2160 is entirely fictitious. Data";
   "have been made up for the purpose of illustrating the use of the format. They consist in";
   "imaginary simultaneous measurements of tropospheric NOX and ozone mixing ratios at three";
   "sites. A time series is provided for each site and each species. Measurements are";
   "supposed to have taken place every 10 minutes. The 4th and 5th auxiliary variables give";
   "the time of the first measurement of the series.";
   "10";
   "The files included in this data set illustrate each of the 9 NASA Ames file format";
   "indices (FFI). A detailed description of the NASA Ames format can be found on the Web";
   "site of the British Atmospheric Data Centre (BADC) at";
   "http://www.badc.rl.ac.uk/help/formats/NASA-Ames/";
   "E-mail contact: badc@rl.ac.uk";
   "Reference: S. E. Gaines and R. S. Hipskind, Format Specification for Data Exchange,";
   "Version 1.3, 1998. This work can be found at";
   "http://cloud1.arc.nasa.gov/solve/archiv/archive.tutorial.html and a copy of it at";
   "http://www.badc.rl.ac.uk/help/formats/NASA-Ames/G-and-H-June-1998.html";
   "";
   "Belbroughton";
   "       7  -2.148  52.398";
   "22-10-2002";
   "12 h 15";
   "       0     2.2    35.0";
   "      10     2.3    35.0";
   "      20     4.5    35.9";
   "      30     4.8   100.0";
   "      40     4.3    36.0";
   "      50     4.2    35.9";
   "      60     4.0    35.9";
   "Coventry";
   "       4  -1.517    52.4";
   "10-10-2002";
   "04 h 20";
   "       0   100.0    34.0";
   "      10     1.9    34.1";
   "      20     2.2    35.0";
   "      30     2.8    35.0";
   "Kidderminster";
   "      10  -2.258  52.364";
   "15-10-2002";
   "16 h 35";
   "       0     3.9    35.0";
   "      10     3.8    35.1";
   "      20     5.4    36.0";
   "      30     5.9    36.2";
   "      40   100.0    36.8";
   "      50     6.4    37.0";
   "      60     6.4    36.9";
   "      70       6    37.0";
   "      80     5.5    36.8";
   "      90     5.3    36.5";
   ""]%pylit.
(** tests/test_outputs/test_2160.na *)
Definition out_2160 : str := text
  ["47    2160";
   "De Rudder, Anne";
   "Rutherford Appleton Laboratory, Chilton OX11 0QX, UK - Tel.: +44 (0) 1235 445837";
   "Chemiluminescence NOX analyser. UV absorption API 400 ozone analyser.";
   "NERC Data Grid (NDG) project";
   "10    13";
   "2002 10 10    2002 10 31";
   "10.0";
   "13.0";
   "Time (minutes)";
   "Site name";
   "2";
   "1.0    1.0";
   "100.0    100.0";
   "NOX volume mixing ratio (ppbv)";
   "Ozone volume mixing ratio (ppbv)";
   "5";
   "2";
   "1.0    1.0    1.0";
   "100.0    1000.0    1000.0";
   "10    7";
   "zzzzzzzzzz";
   "zzzzzzz";
   "Number of measurements";
   "Longitude (degrees from Greenwich meridian)";
   "Latitude (degrees North)";
   "Date";
   "Local time at t = 0";
   "7";
   "Example of FFI 2160.";
   "This example illustrating NASA Ames file format index 2160 is entirely fictitious. Data";
   "have been made up for the purpose of illustrating the use of the format. They consist in";
   "imaginary simultaneous measurements of tropospheric NOX and ozone mixing ratios at three";
   "sites. A time series is provided for each site and each species. Measurements are";
   "supposed to have taken place every 10 minutes. The 4th and 5th auxiliary variables give";
   "the time of the first measurement of the series.";
   "10";
   "The files included in this data set illustrate each of the 9 NASA Ames file format";
   "indices (FFI). A detailed description of the NASA Ames format can be found on the Web";
   "site of the British Atmospheric Data Centre (BADC) at";
   "http://www.badc.rl.ac.uk/help/formats/NASA-Ames/";
   "E-mail contact: badc@rl.ac.uk";
   "Reference: S. E. Gaines and R. S. Hipskind, Format Specification for Data Exchange,";
   "Version 1.3, 1998. This work can be found at";
   "http://cloud1.arc.nasa.gov/solve/archiv/archive.tutorial.html and a copy of it at";
   "http://www.badc.rl.ac.uk/help/formats/NASA-Ames/G-and-H-June-1998.html";
   "";
   "Belbroughton";
   "7    -2.148    52.398";
   "22-10-2002";
   "12 h 15";
   "0    2.2    35";
   "10    2.3    35";
   "20    4.5    35.9";
   "30    4.8    100";
   "40    4.3    36";
   "50    4.2    35.9";
   "60    4    35.9";
   "Coventry";
   "4    -1.517    52.4";
   "10-10-2002";
   "04 h 20";
   "0    100    34";
   "10    1.9    34.1";
   "20    2.2    35";
   "30    2.8    35";
   "Kidderminster";
   "10    -2.258    52.364";
   "15-10-2002";
   "16 h 35";
   "0    3.9    35";
   "10    3.8    35.1";
   "20    5.4    36";
   "30    5.9    36.2";
   "40    100    36.8";
   "50    6.4    37";
   "60    6.4    36.9";
   "70    6    37";
   "80    5.5    36.8";
   "90    5.3    36.5";
   ""]%pylit.
(** tests/test_outputs/test_2160.csv *)
Definition csv_2160 : str := text
  ["47,2160";
   "De Rudder, Anne";
   "Rutherford Appleton Laboratory, Chilton OX11 0QX, UK - Tel.: +44 (0) 1235 445837";
   "Chemiluminescence NOX analyser. UV absorption API 400 ozone analyser.";
   "NERC Data Grid (NDG) project";
   "10,13";
   "2002 10 10,2002 10 31";
   "10.0";
   "13.0";
   "Site name";
   "Time (minutes)";
   "2";
   "1.0,1.0";
   "100.0,100.0";
   "NOX volume mixing ratio (ppbv)";
   "Ozone volume mixing ratio (ppbv)";
   "5";
   "2";
   "1.0,1.0,1.0";
   "100.0,1000.0,1000.0";
   "10,7";
   "zzzzzzzzzz";
   "zzzzzzz";
   "Number of measurements";
   "Longitude (degrees from Greenwich meridian)";
   "Latitude (degrees North)";
   "Date";
   "Local time at t = 0";
   "7";
   "Example of FFI 2160.";
   "This example illustrating NASA Ames file format index 2160 is entirely fictitious. Data";
   "have been made up for the purpose of illustrating the use of the format. They consist in";
   "imaginary simultaneous measurements of tropospheric NOX and ozone mixing ratios at three";
   "sites. A time series is provided for each site and each species. Measurements are";
   "supposed to have taken place every 10 minutes. The 4th and 5th auxiliary variables give";
   "the time of the first measurement of the series.";
   "10";
   "The files included in this data set illustrate each of the 9 NASA Ames file format";
   "indices (FFI). A detailed description of the NASA Ames format can be found on the Web";
   "site of the British Atmospheric Data Centre (BADC) at";
   "http://www.badc.rl.ac.uk/help/formats/NASA-Ames/";
   "E-mail contact: badc@rl.ac.uk";
   "Reference: S. E. Gaines and R. S. Hipskind, Format Specification for Data Exchange,";
   "Version 1.3, 1998. This work can be found at";
   "http://cloud1.arc.nasa.gov/solve/archiv/archive.tutorial.html and a copy of it at";
   "http://www.badc.rl.ac.uk/help/formats/NASA-Ames/G-and-H-June-1998.html";
   "";
   "Belbroughton";
   "7.000000,-2.148000,52.398000";
   "22-10-2002";
   "12 h 15";
   "0.000000,2.200000,35.000000";
   "10.000000,2.300000,35.000000";
   "20.000000,4.500000,35.900000";
   "30.000000,4.800000,100.000000";
   "40.000000,4.300000,36.000000";
   "50.000000,4.200000,35.900000";
   "60.000000,4.000000,35.900000";
   "Coventry";
   "4.000000,-1.517000,52.400000";
   "10-10-2002";
   "04 h 20";
   "0.000000,100.000000,34.000000";
   "10.000000,1.900000,34.100000";
   "20.000000,2.200000,35.000000";
   "30.000000,2.800000,35.000000";
   "Kidderminster";
   "10.000000,-2.258000,52.364000";
   "15-10-2002";
   "16 h 35";
   "0.000000,3.900000,35.000000";
   "10.000000,3.800000,35.100000";
   "20.000000,5.400000,36.000000";
   "30.000000,5.900000,36.200000";
   "40.000000,100.000000,36.800000";
   "50.000000,6.400000,37.000000";
   "60.000000,6.400000,36.900000";
   "70.000000,6.000000,37.000000";
   "80.000000,5.500000,36.800000";
   "90.000000,5.300000,36.500000";
   ""]%pylit.
(** tests/test_outputs/test_2160_annotated.csv *)
Definition annotated_2160 : str := text
  ["Number of header lines; NASA Ames sub-format code,47,2160";
   "Name of data creator,De Rudder, Anne";
   "Institute of data creator,Rutherford Appleton Laboratory, Chilton OX11 0QX, UK - Tel.: +44 (0) 1235 445837";
   "Instrument or model name,Chemiluminescence NOX analyser. UV absorption API 400 ozone analyser.";
   "Project name,NERC Data Grid (NDG) project";
   "File number; Total number of files,10,13";
   "Starting date of data (YYYY MM DD); File creation date (YYYY MM DD),2002 10 10,2002 10 31";
   "Interval between coordinate variable values (zero if not used),10.0";
   "Number of characters in character-based coordinate variable,13.0";
   "Name of coordinate variable (with units) 1,Time (minutes)";
   "Name of coordinate variable (with units) 2,Site name";
   "Number of primary variables defined,2";
   "Scale factors for each primary variable,1.0,1.0";
   "Missing values for each primary variable,100.0,100.0";
   "Name of primary variable (with units) 1,NOX volume mixing ratio (ppbv)";
   "Name of primary variable (with units) 2,Ozone volume mixing ratio (ppbv)";
   "Number of auxiliary variables,5";
   "Number of character-based auxiliary variables,2";
   "Scale factors for each auxiliary variable,1.0,1.0,1.0";
   "Missing values for each auxiliary variable,100.0,1000.0,1000.0";
   "Number of characters in character-based auxiliary variable,10,7";
   "Missing values for each auxiliary variable 1,zzzzzzzzzz";
   "Missing values for each auxiliary variable 2,zzzzzzz";
   "Name of auxiliary variable (with units) 1,Number of measurements";
   "Name of auxiliary variable (with units) 2,Longitude (degrees from Greenwich meridian)";
   "Name of auxiliary variable (with units) 3,Latitude (degrees North)";
   "Name of auxiliary variable (with units) 4,Date";
   "Name of auxiliary variable (with units) 5,Local time at t = 0";
   "Number of lines of special comments,7";
   "Special comments line 1,Example of FFI 2160.";
   "Special comments line 2,This example illustrating NASA Ames file format index 2160 is entirely fictitious. Data";
   "Special comments line 3,have been made up for the purpose of illustrating the use of the format. They consist in";
   "Special comments line 4,imaginary simultaneous measurements of tropospheric NOX and ozone mixing ratios at three";
   "Special comments line 5,sites. A time series is provided for each site and each species. Measurements are";
   "Special comments line 6,supposed to have taken place every 10 minutes. The 4th and 5th auxiliary variables give";
   "Special comments line 7,the time of the first measurement of the series.";
   "Number of lines of normal comments,10";
   "Normal comments line 1,The files included in this data set illustrate each of the 9 NASA Ames file format";
   "Normal comments line 2,indices (FFI). A detailed description of the NASA Ames format can be found on the Web";
   "Normal comments line 3,site of the British Atmospheric Data Centre (BADC) at";
   "Normal comments line 4,http://www.badc.rl.ac.uk/help/formats/NASA-Ames/";
   "Normal comments line 5,E-mail contact: badc@rl.ac.uk";
   "Normal comments line 6,Reference: S. E. Gaines and R. S. Hipskind, Format Specification for Data Exchange,";
   "Normal comments line 7,Version 1.3, 1998. This work can be found at";
   "Normal comments line 8,http://cloud1.arc.nasa.gov/solve/archiv/archive.tutorial.html and a copy of it at";
   "Normal comments line 9,http://www.badc.rl.ac.uk/help/formats/NASA-Ames/G-and-H-June-1998.html";
   "Normal comments line 10,";
   "Data section,Belbroughton";
   "Data section,7,-2.148,52.398";
   "Data section,22-10-2002";
   "Data section,12 h 15";
   "Data section,0,2.2,35";
   "Data section,10,2.3,35";
   "Data section,20,4.5,35.9";
   "Data section,30,4.8,100";
   "Data section,40,4.3,36";
   "Data section,50,4.2,35.9";
   "Data section,60,4,35.9";
   "Data section,Coventry";
   "Data section,4,-1.517,52.4";
   "Data section,10-10-2002";
   "Data section,04 h 20";
   "Data section,0,100,34";
   "Data section,10,1.9,34.1";
   "Data section,20,2.2,35";
   "Data section,30,2.8,35";
   "Data section,Kidderminster";
   "Data section,10,-2.258,52.364";
   "Data section,15-10-2002";
   "Data section,16 h 35";
   "Data section,0,3.9,35";
   "Data section,10,3.8,35.1";
   "Data section,20,5.4,36";
   "Data section,30,5.9,36.2";
   "Data section,40,100,36.8";
   "Data section,50,6.4,37";
   "Data section,60,6.4,36.9";
   "Data section,70,6,37";
   "Data section,80,5.5,36.8";
   "Data section,90,5.3,36.5";
   ""]%pylit.
Example recorded_2160 : written na_2160 out_2160 csv_2160 (Some annotated_2160) = true.
Proof. vm_compute. reflexivity. Qed.
Example compared_2160 : compared na_2160 out_2160 csv_2160 = true.
Proof. vm_compute. reflexivity. Qed.

(** ** 2310 *)
(** tests/testdata/2310.na *)
Definition na_2310 : str := text
  ["39  2310";
   "De Rudder, Anne";
   "Rutherford Appleton Laboratory, Chilton OX11 0QX, UK - Tel.: +44 (0) 1235 445837";
   "Anemometer measurements averaged over longitude";
   "NERC Data Grid (NDG) project";
   "11  13";
   "1969 01 01  2002 10 31";
   "0";
   "Latitude (degrees North)";
   "Altitude (km)";
   "1";
   "1";
   "200";
   "Mean zonal wind (m/s)";
   "4";
   "1  1  1  1";
   "100 1000 1000 2000";
   "Number of latitude points";
   "First latitude point (degrees North)";
   "Latitude interval (degrees)";
   "Pressure (hPa)";
   "6";
   "Example of FFI 2310.";
   "This example illustrating NASA Ames file format index 2310 is based on results";
   "from Murgatroyd (1969) as displayed in Brasseur and Solomon, Aeronomy of the";
   "Middle Atmosphere, Reidel, 1984 (p.36). It is representative of the mean zonal";
   "wind distribution in the winter hemisphere as a function of latitude and height.";
   "The first date on line 7 (1st of January 1969) is fictitious.";
   "10";
   "The files included in this data set illustrate each of the 9 NASA Ames file format";
   "indices (FFI). A detailed description of the NASA Ames format can be found on the";
   "Web site of the British Atmospheric Data Centre (BADC) at";
   "http://www.badc.rl.ac.uk/help/formats/NASA-Ames/";
   "E-mail contact: badc@rl.ac.uk";
   "Reference: S. E. Gaines and R. S. Hipskind, Format Specification for Data Exchange,";
   "Version 1.3, 1998. This work can be found at";
   "http://cloud1.arc.nasa.gov/solve/archiv/archive.tutorial.html and a copy of it at";
   "http://www.badc.rl.ac.uk/help/formats/NASA-Ames/G-and-H-June-1998.html";
   "";
   "      0      7     20     10 1013.3";
   "   -2.3    2.0    4.8    4.6    4.5    3.0   -0.9";
   "     10      4     50     10  265.0";
   "   21.6   14.9    7.5    3.0";
   "     20      9      0     10   55.3";
   "  -15.1   -4.2    6.9   12.8   14.7   20.0   21.5   18.0    8.2";
   "     30      3      0     30   12.0";
   "  -29.1   -6.8   22.7";
   "     50      4     10     20   0.80";
   "   -4.0   40.8   50.1    8.1";
   "     60      9      0     10   0.22";
   "  -10.0    8.4   31.2   59.9   78.5   77.7   47.0   17.6   16.0";
   "     70      4      0     10  0.052";
   "    1.2   17.6   39.9   63.3";
   ""]%pylit.
(** tests/test_outputs/test_2310.na *)
Definition out_2310 : str := text
  ["39    2310";
   "De Rudder, Anne";
   "Rutherford Appleton Laboratory, Chilton OX11 0QX, UK - Tel.: +44 (0) 1235 445837";
   "Anemometer measurements averaged over longitude";
   "NERC Data Grid (NDG) project";
   "11    13";
   "1969 1 1    2002 10 31";
   "0.0";
   "Latitude (degrees North)";
   "Altitude (km)";
   "1";
   "1.0";
   "200.0";
   "Mean zonal wind (m/s)";
   "4";
   "1.0    1.0    1.0    1.0";
   "100.0    1000.0    1000.0    2000.0";
   "Number of latitude points";
   "First latitude point (degrees North)";
   "Latitude interval (degrees)";
   "Pressure (hPa)";
   "6";
   "Example of FFI 2310.";
   "This example illustrating NASA Ames file format index 2310 is based on results";
   "from Murgatroyd (1969) as displayed in Brasseur and Solomon, Aeronomy of the";
   "Middle Atmosphere, Reidel, 1984 (p.36). It is representative of the mean zonal";
   "wind distribution in the winter hemisphere as a function of latitude and height.";
   "The first date on line 7 (1st of January 1969) is fictitious.";
   "10";
   "The files included in this data set illustrate each of the 9 NASA Ames file format";
   "indices (FFI). A detailed description of the NASA Ames format can be found on the";
   "Web site of the British Atmospheric Data Centre (BADC) at";
   "http://www.badc.rl.ac.uk/help/formats/NASA-Ames/";
   "E-mail contact: badc@rl.ac.uk";
   "Reference: S. E. Gaines and R. S. Hipskind, Format Specification for Data Exchange,";
   "Version 1.3, 1998. This work can be found at";
   "http://cloud1.arc.nasa.gov/solve/archiv/archive.tutorial.html and a copy of it at";
   "http://www.badc.rl.ac.uk/help/formats/NASA-Ames/G-and-H-June-1998.html";
   "";
   "0    7    20    10    1013.3";
   "-2.3    2    4.8    4.6    4.5    3    -0.9";
   "10    4    50    10    265";
   "21.6    14.9    7.5    3";
   "20    9    0    10    55.3";
   "-15.1    -4.2    6.9    12.8    14.7    20    21.5    18    8.2";
   "30    3    0    30    12";
   "-29.1    -6.8    22.7";
   "50    4    10    20    0.8";
   "-4    40.8    50.1    8.1";
   "60    9    0    10    0.22";
   "-10    8.4    31.2    59.9    78.5    77.7    47    17.6    16";
   "70    4    0    10    0.052";
   "1.2    17.6    39.9    63.3";
   ""]%pylit.
(** tests/test_outputs/test_2310.csv *)
Definition csv_2310 : str := text
  ["39,2310";
   "De Rudder, Anne";
   "Rutherford Appleton Laboratory, Chilton OX11 0QX, UK - Tel.: +44 (0) 1235 445837";
   "Anemometer measurements averaged over longitude";
   "NERC Data Grid (NDG) project";
   "11,13";
   "1969 1 1,2002 10 31";
   "0.0";
   "Altitude (km)";
   "Latitude (degrees North)";
   "1";
   "1.0";
   "200.0";
   "Mean zonal wind (m/s)";
   "4";
   "1.0,1.0,1.0,1.0";
   "100.0,1000.0,1000.0,2000.0";
   "Number of latitude points";
   "First latitude point (degrees North)";
   "Latitude interval (degrees)";
   "Pressure (hPa)";
   "6";
   "Example of FFI 2310.";
   "This example illustrating NASA Ames file format index 2310 is based on results";
   "from Murgatroyd (1969) as displayed in Brasseur and Solomon, Aeronomy of the";
   "Middle Atmosphere, Reidel, 1984 (p.36). It is representative of the mean zonal";
   "wind distribution in the winter hemisphere as a function of latitude and height.";
   "The first date on line 7 (1st of January 1969) is fictitious.";
   "10";
   "The files included in this data set illustrate each of the 9 NASA Ames file format";
   "indices (FFI). A detailed description of the NASA Ames format can be found on the";
   "Web site of the British Atmospheric Data Centre (BADC) at";
   "http://www.badc.rl.ac.uk/help/formats/NASA-Ames/";
   "E-mail contact: badc@rl.ac.uk";
   "Reference: S. E. Gaines and R. S. Hipskind, Format Specification for Data Exchange,";
   "Version 1.3, 1998. This work can be found at";
   "http://cloud1.arc.nasa.gov/solve/archiv/archive.tutorial.html and a copy of it at";
   "http://www.badc.rl.ac.uk/help/formats/NASA-Ames/G-and-H-June-1998.html";
   "";
   "0.000000,7.000000,20.000000,10.000000,1013.300000";
   "-2.300000,2.000000,4.800000,4.600000,4.500000,3.000000,-0.900000";
   "10.000000,4.000000,50.000000,10.000000,265.000000";
   "21.600000,14.900000,7.500000,3.000000";
   "20.000000,9.000000,0.000000,10.000000,55.300000";
   "-15.100000,-4.200000,6.900000,12.800000,14.700000,20.000000,21.500000,18.000000,8.200000";
   "30.000000,3.000000,0.000000,30.000000,12.000000";
   "-29.100000,-6.800000,22.700000";
   "50.000000,4.000000,10.000000,20.000000,0.800000";
   "-4.000000,40.800000,50.100000,8.100000";
   "60.000000,9.000000,0.000000,10.000000,0.220000";
   "-10.000000,8.400000,31.200000,59.900000,78.500000,77.700000,47.000000,17.600000,16.000000";
   "70.000000,4.000000,0.000000,10.000000,0.052000";
   "1.200000,17.600000,39.900000,63.300000";
   ""]%pylit.
(** tests/test_outputs/test_2310_annotated.csv *)
Definition annotated_2310 : str := text
  ["Number of header lines; NASA Ames sub-format code,39,2310";
   "Name of data creator,De Rudder, Anne";
   "Institute of data creator,Rutherford Appleton Laboratory, Chilton OX11 0QX, UK - Tel.: +44 (0) 1235 445837";
   "Instrument or model name,Anemometer measurements averaged over longitude";
   "Project name,NERC Data Grid (NDG) project";
   "File number; Total number of files,11,13";
   "Starting date of data (YYYY MM DD); File creation date (YYYY MM DD),1969 1 1,2002 10 31";
   "Interval between coordinate variable values (zero if not used),0.0";
   "Name of coordinate variable (with units) 1,Latitude (degrees North)";
   "Name of coordinate variable (with units) 2,Altitude (km)";
   "Number of primary variables defined,1";
   "Scale factors for each primary variable,1.0";
   "Missing values for each primary variable,200.0";
   "Name of primary variable (with units) 1,Mean zonal wind (m/s)";
   "Number of auxiliary variables,4";
   "Scale factors for each auxiliary variable,1.0,1.0,1.0,1.0";
   "Missing values for each auxiliary variable,100.0,1000.0,1000.0,2000.0";
   "Name of auxiliary variable (with units) 1,Number of latitude points";
   "Name of auxiliary variable (with units) 2,First latitude point (degrees North)";
   "Name of auxiliary variable (with units) 3,Latitude interval (degrees)";
   "Name of auxiliary variable (with units) 4,Pressure (hPa)";
   "Number of lines of special comments,6";
   "Special comments line 1,Example of FFI 2310.";
   "Special comments line 2,This example illustrating NASA Ames file format index 2310 is based on results";
   "Special comments line 3,from Murgatroyd (1969) as displayed in Brasseur and Solomon, Aeronomy of the";
   "Special comments line 4,Middle Atmosphere, Reidel, 1984 (p.36). It is representative of the mean zonal";
   "Special comments line 5,wind distribution in the winter hemisphere as a function of latitude and height.";
   "Special comments line 6,The first date on line 7 (1st of January 1969) is fictitious.";
   "Number of lines of normal comments,10";
   "Normal comments line 1,The files included in this data set illustrate each of the 9 NASA Ames file format";
   "Normal comments line 2,indices (FFI). A detailed description of the NASA Ames format can be found on the";
   "Normal comments line 3,Web site of the British Atmospheric Data Centre (BADC) at";
   "Normal comments line 4,http://www.badc.rl.ac.uk/help/formats/NASA-Ames/";
   "Normal comments line 5,E-mail contact: badc@rl.ac.uk";
   "Normal comments line 6,Reference: S. E. Gaines and R. S. Hipskind, Format Specification for Data Exchange,";
   "Normal comments line 7,Version 1.3, 1998. This work can be found at";
   "Normal comments line 8,http://cloud1.arc.nasa.gov/solve/archiv/archive.tutorial.html and a copy of it at";
   "Normal comments line 9,http://www.badc.rl.ac.uk/help/formats/NASA-Ames/G-and-H-June-1998.html";
   "Normal comments line 10,";
   "Data section,0,7,20,10,1013.3";
   "Data section,-2.3,2,4.8,4.6,4.5,3,-0.9";
   "Data section,10,4,50,10,265";
   "Data section,21.6,14.9,7.5,3";
   "Data section,20,9,0,10,55.3";
   "Data section,-15.1,-4.2,6.9,12.8,14.7,20,21.5,18,8.2";
   "Data section,30,3,0,30,12";
   "Data section,-29.1,-6.8,22.7";
   "Data section,50,4,10,20,0.8";
   "Data section,-4,40.8,50.1,8.1";
   "Data section,60,9,0,10,0.22";
   "Data section,-10,8.4,31.2,59.9,78.5,77.7,47,17.6,16";
   "Data section,70,4,0,10,0.052";
   "Data section,1.2,17.6,39.9,63.3";
   ""]%pylit.
Example recorded_2310 : written na_2310 out_2310 csv_2310 (Some annotated_2310) = true.
Proof. vm_compute. reflexivity. Qed.
Example compared_2310 : compared na_2310 out_2310 csv_2310 = true.
Proof. vm_compute. reflexivity. Qed.

(** ** 3010 *)
(** tests/testdata/3010.na *)
Definition na_3010 : str := text
  ["41  3010";
   "De Rudder, Anne";
   "Rutherford Appleton Laboratory, Chilton OX11 0QX, UK - Tel.: +44 (0) 1235 445837";
   "Imaginary 2-D stratospheric radiative model";
   "NERC Data Grid (NDG) project";
   "12  13";
   "1980 06 21  2002 10 31";
   "30  -10  0";
   "7  4";
   "1  1";
   "-90";
   "50";
   "Latitude (degrees)";
   "Altitude (km)";
   "Day number";
   "1";
   "1";
   "1000";
   "Temperature (K)";
   "0";
   "9";
   "Example of FFI 3010.";
   "This example illustrating NASA Ames file format index 3010 is entirely fictitious.";
   "Data have been made up for the purpose of illustrating the use of the format. They";
   "consist in an imaginary calculated temperature distribution over a latitude-altitude";
   "grid at the two solstices (21 June and 21 December). The grid is defined in lines 8,";
   "9, 11 and 12. Latitude ranges from -90 to +90 degrees by intervals of 30 degrees.";
   "Altitude ranges from 50 to 20 km by negative increments of 10 km.";
   "The day number is counted from 1st of January = Day One.";
   "The year of the first date on line 7 (1980) has no particular meaning.";
   "10";
   "The files included in this data set illustrate each of the 9 NASA Ames file format";
   "indices (FFI). A detailed description of the NASA Ames format can be found on the Web";
   "site of the British Atmospheric Data Centre (BADC) at";
   "http://www.badc.rl.ac.uk/help/formats/NASA-Ames/";
   "E-mail contact: badc@rl.ac.uk";
   "Reference: S. E. Gaines and R. S. Hipskind, Format Specification for Data Exchange,";
   "Version 1.3, 1998. This work can be found at";
   "http://cloud1.arc.nasa.gov/solve/archiv/archive.tutorial.html and a copy of it at";
   "http://www.badc.rl.ac.uk/help/formats/NASA-Ames/G-and-H-June-1998.html";
   "";
   "    172";
   "    193    211    224    229    235    245    270";
   "    221    230    254    272    281    289    300";
   "    220    229    244    253    260    263    278";
   "    195    208    217    219    223    230    240";
   "    355";
   "    270    245    235    229    224    211    193";
   "    300    289    281    272    254    230    221";
   "    278    263    260    253    244    229    220";
   "    240    230    223    219    217    208    195";
   ""]%pylit.
(** tests/test_outputs/test_3010.na *)
Definition out_3010 : str := text
  ["41    3010";
   "De Rudder, Anne";
   "Rutherford Appleton Laboratory, Chilton OX11 0QX, UK - Tel.: +44 (0) 1235 445837";
   "Imaginary 2-D stratospheric radiative model";
   "NERC Data Grid (NDG) project";
   "12    13";
   "1980 6 21    2002 10 31";
   "30.0    -10.0    0.0";
   "7    4";
   "1    1";
   "-90";
   "50";
   "Latitude (degrees)";
   "Altitude (km)";
   "Day number";
   "1";
   "1.0";
   "1000.0";
   "Temperature (K)";
   "0";
   "9";
   "Example of FFI 3010.";
   "This example illustrating NASA Ames file format index 3010 is entirely fictitious.";
   "Data have been made up for the purpose of illustrating the use of the format. They";
   "consist in an imaginary calculated temperature distribution over a latitude-altitude";
   "grid at the two solstices (21 June and 21 December). The grid is defined in lines 8,";
   "9, 11 and 12. Latitude ranges from -90 to +90 degrees by intervals of 30 degrees.";
   "Altitude ranges from 50 to 20 km by negative increments of 10 km.";
   "The day number is counted from 1st of January = Day One.";
   "The year of the first date on line 7 (1980) has no particular meaning.";
   "10";
   "The files included in this data set illustrate each of the 9 NASA Ames file format";
   "indices (FFI). A detailed description of the NASA Ames format can be found on the Web";
   "site of the British Atmospheric Data Centre (BADC) at";
   "http://www.badc.rl.ac.uk/help/formats/NASA-Ames/";
   "E-mail contact: badc@rl.ac.uk";
   "Reference: S. E. Gaines and R. S. Hipskind, Format Specification for Data Exchange,";
   "Version 1.3, 1998. This work can be found at";
   "http://cloud1.arc.nasa.gov/solve/archiv/archive.tutorial.html and a copy of it at";
   "http://www.badc.rl.ac.uk/help/formats/NASA-Ames/G-and-H-June-1998.html";
   "";
   "172";
   "193    211    224    229    235    245    270";
   "221    230    254    272    281    289    300";
   "220    229    244    253    260    263    278";
   "195    208    217    219    223    230    240";
   "355";
   "270    245    235    229    224    211    193";
   "300    289    281    272    254    230    221";
   "278    263    260    253    244    229    220";
   "240    230    223    219    217    208    195";
   ""]%pylit.
(** tests/test_outputs/test_3010.csv *)
Definition csv_3010 : str := text
  ["41,3010";
   "De Rudder, Anne";
   "Rutherford Appleton Laboratory, Chilton OX11 0QX, UK - Tel.: +44 (0) 1235 445837";
   "Imaginary 2-D stratospheric radiative model";
   "NERC Data Grid (NDG) project";
   "12,13";
   "1980 6 21,2002 10 31";
   "0.0,-10.0,30.0";
   "7,4";
   "1,1";
   "-90.000000";
   "50.000000";
   "Latitude (degrees)";
   "Altitude (km)";
   "Day number";
   "1";
   "1.0";
   "1000.0";
   "Temperature (K)";
   "0";
   "9";
   "Example of FFI 3010.";
   "This example illustrating NASA Ames file format index 3010 is entirely fictitious.";
   "Data have been made up for the purpose of illustrating the use of the format. They";
   "consist in an imaginary calculated temperature distribution over a latitude-altitude";
   "grid at the two solstices (21 June and 21 December). The grid is defined in lines 8,";
   "9, 11 and 12. Latitude ranges from -90 to +90 degrees by intervals of 30 degrees.";
   "Altitude ranges from 50 to 20 km by negative increments of 10 km.";
   "The day number is counted from 1st of January = Day One.";
   "The year of the first date on line 7 (1980) has no particular meaning.";
   "10";
   "The files included in this data set illustrate each of the 9 NASA Ames file format";
   "indices (FFI). A detailed description of the NASA Ames format can be found on the Web";
   "site of the British Atmospheric Data Centre (BADC) at";
   "http://www.badc.rl.ac.uk/help/formats/NASA-Ames/";
   "E-mail contact: badc@rl.ac.uk";
   "Reference: S. E. Gaines and R. S. Hipskind, Format Specification for Data Exchange,";
   "Version 1.3, 1998. This work can be found at";
   "http://cloud1.arc.nasa.gov/solve/archiv/archive.tutorial.html and a copy of it at";
   "http://www.badc.rl.ac.uk/help/formats/NASA-Ames/G-and-H-June-1998.html";
   "";
   "172.000000";
   "193.000000,211.000000,224.000000,229.000000,235.000000,245.000000,270.000000";
   "221.000000,230.000000,254.000000,272.000000,281.000000,289.000000,300.000000";
   "220.000000,229.000000,244.000000,253.000000,260.000000,263.000000,278.000000";
   "195.000000,208.000000,217.000000,219.000000,223.000000,230.000000,240.000000";
   "355.000000";
   "270.000000,245.000000,235.000000,229.000000,224.000000,211.000000,193.000000";
   "300.000000,289.000000,281.000000,272.000000,254.000000,230.000000,221.000000";
   "278.000000,263.000000,260.000000,253.000000,244.000000,229.000000,220.000000";
   "240.000000,230.000000,223.000000,219.000000,217.000000,208.000000,195.000000";
   ""]%pylit.
(** tests/test_outputs/test_3010_annotated.csv *)
Definition annotated_3010 : str := text
  ["Number of header lines; NASA Ames sub-format code,41,3010";
   "Name of data creator,De Rudder, Anne";
   "Institute of data creator,Rutherford Appleton Laboratory, Chilton OX11 0QX, UK - Tel.: +44 (0) 1235 445837";
   "Instrument or model name,Imaginary 2-D stratospheric radiative model";
   "Project name,NERC Data Grid (NDG) project";
   "File number; Total number of files,12,13";
   "Starting date of data (YYYY MM DD); File creation date (YYYY MM DD),1980 6 21,2002 10 31";
   "Interval between coordinate variable values (zero if not used),30.0,-10.0,0.0";
   "Length of coordinate variables,7,4";
   "Number of coordinate variable values explicity defined in header,1,1";
   "Values of coordinate variable,-90";
   "Values of coordinate variable,50";
   "Name of coordinate variable (with units) 1,Latitude (degrees)";
   "Name of coordinate variable (with units) 2,Altitude (km)";
   "Name of coordinate variable (with units) 3,Day number";
   "Number of primary variables defined,1";
   "Scale factors for each primary variable,1.0";
   "Missing values for each primary variable,1000.0";
   "Name of primary variable (with units) 1,Temperature (K)";
   "Number of auxiliary variables,0";
   "Number of lines of special comments,9";
   "Special comments line 1,Example of FFI 3010.";
   "Special comments line 2,This example illustrating NASA Ames file format index 3010 is entirely fictitious.";
   "Special comments line 3,Data have been made up for the purpose of illustrating the use of the format. They";
   "Special comments line 4,consist in an imaginary calculated temperature distribution over a latitude-altitude";
   "Special comments line 5,grid at the two solstices (21 June and 21 December). The grid is defined in lines 8,";
   "Special comments line 6,9, 11 and 12. Latitude ranges from -90 to +90 degrees by intervals of 30 degrees.";
   "Special comments line 7,Altitude ranges from 50 to 20 km by negative increments of 10 km.";
   "Special comments line 8,The day number is counted from 1st of January = Day One.";
   "Special comments line 9,The year of the first date on line 7 (1980) has no particular meaning.";
   "Number of lines of normal comments,10";
   "Normal comments line 1,The files included in this data set illustrate each of the 9 NASA Ames file format";
   "Normal comments line 2,indices (FFI). A detailed description of the NASA Ames format can be found on the Web";
   "Normal comments line 3,site of the British Atmospheric Data Centre (BADC) at";
   "Normal comments line 4,http://www.badc.rl.ac.uk/help/formats/NASA-Ames/";
   "Normal comments line 5,E-mail contact: badc@rl.ac.uk";
   "Normal comments line 6,Reference: S. E. Gaines and R. S. Hipskind, Format Specification for Data Exchange,";
   "Normal comments line 7,Version 1.3, 1998. This work can be found at";
   "Normal comments line 8,http://cloud1.arc.nasa.gov/solve/archiv/archive.tutorial.html and a copy of it at";
   "Normal comments line 9,http://www.badc.rl.ac.uk/help/formats/NASA-Ames/G-and-H-June-1998.html";
   "Normal comments line 10,";
   "Data section,172";
   "Data section,193,211,224,229,235,245,270";
   "Data section,221,230,254,272,281,289,300";
   "Data section,220,229,244,253,260,263,278";
   "Data section,195,208,217,219,223,230,240";
   "Data section,355";
   "Data section,270,245,235,229,224,211,193";
   "Data section,300,289,281,272,254,230,221";
   "Data section,278,263,260,253,244,229,220";
   "Data section,240,230,223,219,217,208,195";
   ""]%pylit.
Example recorded_3010 : written na_3010 out_3010 csv_3010 (Some annotated_3010) = true.
Proof. vm_compute. reflexivity. Qed.
Example compared_3010 : compared na_3010 out_3010 csv_3010 = true.
Proof. vm_compute. reflexivity. Qed.

(** ** 4010 *)
(** tests/testdata/4010.na *)
Definition na_4010 : str := text
  ["53  4010";
   "De Rudder, Anne";
   "Rutherford Appleton Laboratory, Chilton OX11 0QX, UK - Tel.: +44 (0) 1235 445837";
   "Imaginary 3-D stratospheric radiative model";
   "NERC Data Grid (NDG) project";
   "13  13";
   "1980 06 21  2002 10 31";
   "5  -30  30  6";
   "13  7  2";
   "1  1  1";
   "-30";
   "90";
   "20";
   "Longitude (degrees)";
   "Latitude (degrees)";
   "Altitude (km)";
   "Universal time (hours)";
   "1";
   "1";
   "1000";
   "Temperature (K)";
   "0";
   "19";
   "Example of FFI 4010.";
   "This example illustrating NASA Ames file format index 4010 is entirely fictitious.";
   "Data have been made up for the purpose of illustrating the use of the format. They";
   "consist in an imaginary calculated temperature distribution over a longitude-lati-";
   "tude-altitude grid at 6 o'clock and noon on the 21st of June 1980. The grid is";
   "defined in lines 8, 9, 11, 12 and 13. Longitude ranges from 30 degrees West to 30";
   "degrees East by intervals of 5 degrees. Latitude ranges from 90 North to 90 South by";
   "negative intervals of 30 degrees. Altitude takes the two values of 20 and 50 km.";
   "If the temperature is written as T(lon, lat, alt, time), the record below thus reads,";
   "for each of the two times t = 6 and t = 12,";
   "";
   "t";
   "T(-30, 90, 20, t) . . . T(30, 90, 20, t)";
   "      . . .                   . . .";
   "T(-30, -90, 20, t). . . T(30, -90, 20, t)";
   "T(-30, 90, 50, t) . . . T(30, 90, 50, t)";
   "      . . .                   . . .";
   "T(-30, -90, 50, t). . . T(30, -90, 50, t)";
   "";
   "10";
   "The files included in this data set illustrate each of the 9 NASA Ames file format";
   "indices (FFI). A detailed description of the NASA Ames format can be found on the Web";
   "site of the British Atmospheric Data Centre (BADC) at";
   "http://www.badc.rl.ac.uk/help/formats/NASA-Ames/";
   "E-mail contact: badc@rl.ac.uk";
   "Reference: S. E. Gaines and R. S. Hipskind, Format Specification for Data Exchange,";
   "Version 1.3, 1998. This work can be found at";
   "http://cloud1.arc.nasa.gov/solve/archiv/archive.tutorial.html and a copy of it at";
   "http://www.badc.rl.ac.uk/help/formats/NASA-Ames/G-and-H-June-1998.html";
   "";
   "     6";
   " 230.0 230.0 230.0 230.0 230.0 230.0 230.0 230.0 230.0 230.0 230.0 230.0 230.0";
   " 216.0 216.5 217.0 218.0 218.5 219.0 220.0 220.4 220.4 220.9 221.3 221.0 220.7";
   " 210.6 211.0 211.4 211.8 212.2 212.6 213.0 213.0 213.1 213.0 213.5 213.0 213.1";
   " 205.4 206.0 206.6 207.2 207.8 208.4 209.0 209.2 209.8 210.3 210.0 209.8 209.7";
   " 204.0 204.6 205.0 205.7 206.2 206.8 207.0 207.4 207.8 208.2 208.6 208.3 208.0";
   " 194.7 195.2 196.0 196.6 197.2 197.5 198.0 198.4 198.7 198.9 199.3 199.5 199.1";
   " 185.0 185.0 185.0 185.0 185.0 185.0 185.0 185.0 185.0 185.0 185.0 185.0 185.0";
   " 260.0 260.0 260.0 260.0 260.0 260.0 260.0 260.0 260.0 260.0 260.0 260.0 260.0";
   " 230.0 230.5 231.0 233.0 233.7 234.2 235.0 235.5 236.0 236.5 237.0 237.5 238.0";
   " 217.6 218.3 219.0 219.3 219.7 220.0 225.0 225.8 226.4 227.0 227.8 228.5 229.1";
   " 216.2 216.7 217.0 217.4 218.1 218.5 219.0 219.8 221.0 221.6 222.0 223.0 224.0";
   " 212.1 212.7 213.0 213.5 213.7 214.0 214.0 214.5 215.1 216.0 217.0 218.0 219.0";
   " 198.4 199.0 199.4 200.0 200.6 201.1 201.0 201.5 202.0 202.8 203.4 204.0 205.0";
   " 183.0 183.0 183.0 183.0 183.0 183.0 183.0 183.0 183.0 183.0 183.0 183.0 183.0";
   "    12";
   " 240.0 240.0 240.0 240.0 240.0 240.0 240.0 240.0 240.0 240.0 240.0 240.0 240.0";
   " 228.6 228.7 228.8 229.0 229.3 229.8 230.0 230.5 231.0 231.5 232.0 231.5 231.0";
   " 221.3 221.7 222.0 222.4 222.6 223.0 223.0 223.6 224.0 224.4 225.0 224.5 224.0";
   " 216.8 217.0 217.3 217.8 218.0 218.4 219.0 219.3 219.6 220.3 220.8 219.9 219.0";
   " 215.1 215.4 215.7 216.0 216.3 216.6 217.0 217.5 218.0 218.6 219.0 218.9 218.4";
   " 207.4 207.5 207.6 207.7 207.8 207.9 208.0 208.2 208.4 208.6 208.3 208.0 208.3";
   " 195.0 195.0 195.0 195.0 195.0 195.0 195.0 195.0 195.0 195.0 195.0 195.0 195.0";
   " 270.0 270.0 270.0 270.0 270.0 270.0 270.0 270.0 270.0 270.0 270.0 270.0 270.0";
   " 243.0 243.5 244.0 244.3 244.7 245.0 245.0 245.2 245.5 250.0 250.8 251.0 251.0";
   " 232.1 232.7 233.0 234.0 234.3 234.7 235.0 235.3 235.7 236.2 236.8 236.6 236.1";
   " 226.4 226.8 227.0 227.4 228.0 228.8 229.0 229.8 229.7 230.3 230.4 230.3 230.0";
   " 222.7 222.8 222.9 223.2 223.5 224.0 224.0 224.5 225.0 225.2 225.3 225.0 224.9";
   " 209.8 210.0 210.2 210.4 210.6 210.8 211.0 211.0 211.2 211.3 212.0 212.1 211.8";
   " 193.0 193.0 193.0 193.0 193.0 193.0 193.0 193.0 193.0 193.0 193.0 193.0 193.0";
   ""]%pylit.
(** tests/test_outputs/test_4010.na *)
Definition out_4010 : str := text
  ["53    4010";
   "De Rudder, Anne";
   "Rutherford Appleton Laboratory, Chilton OX11 0QX, UK - Tel.: +44 (0) 1235 445837";
   "Imaginary 3-D stratospheric radiative model";
   "NERC Data Grid (NDG) project";
   "13    13";
   "1980 6 21    2002 10 31";
   "5.0    -30.0    30.0    6.0";
   "13    7    2";
   "1    1    1";
   "-30";
   "90";
   "20";
   "Longitude (degrees)";
   "Latitude (degrees)";
   "Altitude (km)";
   "Universal time (hours)";
   "1";
   "1.0";
   "1000.0";
   "Temperature (K)";
   "0";
   "19";
   "Example of FFI 4010.";
   "This example illustrating NASA Ames file format index 4010 is entirely fictitious.";
   "Data have been made up for the purpose of illustrating the use of the format. They";
   "consist in an imaginary calculated temperature distribution over a longitude-lati-";
   "tude-altitude grid at 6 o'clock and noon on the 21st of June 1980. The grid is";
   "defined in lines 8, 9, 11, 12 and 13. Longitude ranges from 30 degrees West to 30";
   "degrees East by intervals of 5 degrees. Latitude ranges from 90 North to 90 South by";
   "negative intervals of 30 degrees. Altitude takes the two values of 20 and 50 km.";
   "If the temperature is written as T(lon, lat, alt, time), the record below thus reads,";
   "for each of the two times t = 6 and t = 12,";
   "";
   "t";
   "T(-30, 90, 20, t) . . . T(30, 90, 20, t)";
   ". . .                   . . .";
   "T(-30, -90, 20, t). . . T(30, -90, 20, t)";
   "T(-30, 90, 50, t) . . . T(30, 90, 50, t)";
   ". . .                   . . .";
   "T(-30, -90, 50, t). . . T(30, -90, 50, t)";
   "";
   "10";
   "The files included in this data set illustrate each of the 9 NASA Ames file format";
   "indices (FFI). A detailed description of the NASA Ames format can be found on the Web";
   "site of the British Atmospheric Data Centre (BADC) at";
   "http://www.badc.rl.ac.uk/help/formats/NASA-Ames/";
   "E-mail contact: badc@rl.ac.uk";
   "Reference: S. E. Gaines and R. S. Hipskind, Format Specification for Data Exchange,";
   "Version 1.3, 1998. This work can be found at";
   "http://cloud1.arc.nasa.gov/solve/archiv/archive.tutorial.html and a copy of it at";
   "http://www.badc.rl.ac.uk/help/formats/NASA-Ames/G-and-H-June-1998.html";
   "";
   "6";
   "230    230    230    230    230    230    230    230    230    230    230    230    230";
   "216    216.5    217    218    218.5    219    220    220.4    220.4    220.9    221.3    221    220.7";
   "210.6    211    211.4    211.8    212.2    212.6    213    213    213.1    213    213.5    213    213.1";
   "205.4    206    206.6    207.2    207.8    208.4    209    209.2    209.8    210.3    210    209.8    209.7";
   "204    204.6    205    205.7    206.2    206.8    207    207.4    207.8    208.2    208.6    208.3    208";
   "194.7    195.2    196    196.6    197.2    197.5    198    198.4    198.7    198.9    199.3    199.5    199.1";
   "185    185    185    185    185    185    185    185    185    185    185    185    185";
   "260    260    260    260    260    260    260    260    260    260    260    260    260";
   "230    230.5    231    233    233.7    234.2    235    235.5    236    236.5    237    237.5    238";
   "217.6    218.3    219    219.3    219.7    220    225    225.8    226.4    227    227.8    228.5    229.1";
   "216.2    216.7    217    217.4    218.1    218.5    219    219.8    221    221.6    222    223    224";
   "212.1    212.7    213    213.5    213.7    214    214    214.5    215.1    216    217    218    219";
   "198.4    199    199.4    200    200.6    201.1    201    201.5    202    202.8    203.4    204    205";
   "183    183    183    183    183    183    183    183    183    183    183    183    183";
   "12";
   "240    240    240    240    240    240    240    240    240    240    240    240    240";
   "228.6    228.7    228.8    229    229.3    229.8    230    230.5    231    231.5    232    231.5    231";
   "221.3    221.7    222    222.4    222.6    223    223    223.6    224    224.4    225    224.5    224";
   "216.8    217    217.3    217.8    218    218.4    219    219.3    219.6    220.3    220.8    219.9    219";
   "215.1    215.4    215.7    216    216.3    216.6    217    217.5    218    218.6    219    218.9    218.4";
   "207.4    207.5    207.6    207.7    207.8    207.9    208    208.2    208.4    208.6    208.3    208    208.3";
   "195    195    195    195    195    195    195    195    195    195    195    195    195";
   "270    270    270    270    270    270    270    270    270    270    270    270    270";
   "243    243.5    244    244.3    244.7    245    245    245.2    245.5    250    250.8    251    251";
   "232.1    232.7    233    234    234.3    234.7    235    235.3    235.7    236.2    236.8    236.6    236.1";
   "226.4    226.8    227    227.4    228    228.8    229    229.8    229.7    230.3    230.4    230.3    230";
   "222.7    222.8    222.9    223.2    223.5    224    224    224.5    225    225.2    225.3    225    224.9";
   "209.8    210    210.2    210.4    210.6    210.8    211    211    211.2    211.3    212    212.1    211.8";
   "193    193    193    193    193    193    193    193    193    193    193    193    193";
   ""]%pylit.
(** tests/test_outputs/test_4010.csv *)
Definition csv_4010 : str := text
  ["53,4010";
   "De Rudder, Anne";
   "Rutherford Appleton Laboratory, Chilton OX11 0QX, UK - Tel.: +44 (0) 1235 445837";
   "Imaginary 3-D stratospheric radiative model";
   "NERC Data Grid (NDG) project";
   "13,13";
   "1980 6 21,2002 10 31";
   "6.0,30.0,-30.0,5.0";
   "13,7,2";
   "1,1,1";
   "-30.000000";
   "90.000000";
   "20.000000";
   "Longitude (degrees)";
   "Latitude (degrees)";
   "Altitude (km)";
   "Universal time (hours)";
   "1";
   "1.0";
   "1000.0";
   "Temperature (K)";
   "0";
   "19";
   "Example of FFI 4010.";
   "This example illustrating NASA Ames file format index 4010 is entirely fictitious.";
   "Data have been made up for the purpose of illustrating the use of the format. They";
   "consist in an imaginary calculated temperature distribution over a longitude-lati-";
   "tude-altitude grid at 6 o'clock and noon on the 21st of June 1980. The grid is";
   "defined in lines 8, 9, 11, 12 and 13. Longitude ranges from 30 degrees West to 30";
   "degrees East by intervals of 5 degrees. Latitude ranges from 90 North to 90 South by";
   "negative intervals of 30 degrees. Altitude takes the two values of 20 and 50 km.";
   "If the temperature is written as T(lon, lat, alt, time), the record below thus reads,";
   "for each of the two times t = 6 and t = 12,";
   "";
   "t";
   "T(-30, 90, 20, t) . . . T(30, 90, 20, t)";
   ". . .                   . . .";
   "T(-30, -90, 20, t). . . T(30, -90, 20, t)";
   "T(-30, 90, 50, t) . . . T(30, 90, 50, t)";
   ". . .                   . . .";
   "T(-30, -90, 50, t). . . T(30, -90, 50, t)";
   "";
   "10";
   "The files included in this data set illustrate each of the 9 NASA Ames file format";
   "indices (FFI). A detailed description of the NASA Ames format can be found on the Web";
   "site of the British Atmospheric Data Centre (BADC) at";
   "http://www.badc.rl.ac.uk/help/formats/NASA-Ames/";
   "E-mail contact: badc@rl.ac.uk";
   "Reference: S. E. Gaines and R. S. Hipskind, Format Specification for Data Exchange,";
   "Version 1.3, 1998. This work can be found at";
   "http://cloud1.arc.nasa.gov/solve/archiv/archive.tutorial.html and a copy of it at";
   "http://www.badc.rl.ac.uk/help/formats/NASA-Ames/G-and-H-June-1998.html";
   "";
   "6.000000";
   "230.000000,230.000000,230.000000,230.000000,230.000000,230.000000,230.000000,230.000000,230.000000,230.000000,230.000000,230.000000,230.000000";
   "216.000000,216.500000,217.000000,218.000000,218.500000,219.000000,220.000000,220.400000,220.400000,220.900000,221.300000,221.000000,220.700000";
   "210.600000,211.000000,211.400000,211.800000,212.200000,212.600000,213.000000,213.000000,213.100000,213.000000,213.500000,213.000000,213.100000";
   "205.400000,206.000000,206.600000,207.200000,207.800000,208.400000,209.000000,209.200000,209.800000,210.300000,210.000000,209.800000,209.700000";
   "204.000000,204.600000,205.000000,205.700000,206.200000,206.800000,207.000000,207.400000,207.800000,208.200000,208.600000,208.300000,208.000000";
   "194.700000,195.200000,196.000000,196.600000,197.200000,197.500000,198.000000,198.400000,198.700000,198.900000,199.300000,199.500000,199.100000";
   "185.000000,185.000000,185.000000,185.000000,185.000000,185.000000,185.000000,185.000000,185.000000,185.000000,185.000000,185.000000,185.000000";
   "260.000000,260.000000,260.000000,260.000000,260.000000,260.000000,260.000000,260.000000,260.000000,260.000000,260.000000,260.000000,260.000000";
   "230.000000,230.500000,231.000000,233.000000,233.700000,234.200000,235.000000,235.500000,236.000000,236.500000,237.000000,237.500000,238.000000";
   "217.600000,218.300000,219.000000,219.300000,219.700000,220.000000,225.000000,225.800000,226.400000,227.000000,227.800000,228.500000,229.100000";
   "216.200000,216.700000,217.000000,217.400000,218.100000,218.500000,219.000000,219.800000,221.000000,221.600000,222.000000,223.000000,224.000000";
   "212.100000,212.700000,213.000000,213.500000,213.700000,214.000000,214.000000,214.500000,215.100000,216.000000,217.000000,218.000000,219.000000";
   "198.400000,199.000000,199.400000,200.000000,200.600000,201.100000,201.000000,201.500000,202.000000,202.800000,203.400000,204.000000,205.000000";
   "183.000000,183.000000,183.000000,183.000000,183.000000,183.000000,183.000000,183.000000,183.000000,183.000000,183.000000,183.000000,183.000000";
   "12.000000";
   "240.000000,240.000000,240.000000,240.000000,240.000000,240.000000,240.000000,240.000000,240.000000,240.000000,240.000000,240.000000,240.000000";
   "228.600000,228.700000,228.800000,229.000000,229.300000,229.800000,230.000000,230.500000,231.000000,231.500000,232.000000,231.500000,231.000000";
   "221.300000,221.700000,222.000000,222.400000,222.600000,223.000000,223.000000,223.600000,224.000000,224.400000,225.000000,224.500000,224.000000";
   "216.800000,217.000000,217.300000,217.800000,218.000000,218.400000,219.000000,219.300000,219.600000,220.300000,220.800000,219.900000,219.000000";
   "215.100000,215.400000,215.700000,216.000000,216.300000,216.600000,217.000000,217.500000,218.000000,218.600000,219.000000,218.900000,218.400000";
   "207.400000,207.500000,207.600000,207.700000,207.800000,207.900000,208.000000,208.200000,208.400000,208.600000,208.300000,208.000000,208.300000";
   "195.000000,195.000000,195.000000,195.000000,195.000000,195.000000,195.000000,195.000000,195.000000,195.000000,195.000000,195.000000,195.000000";
   "270.000000,270.000000,270.000000,270.000000,270.000000,270.000000,270.000000,270.000000,270.000000,270.000000,270.000000,270.000000,270.000000";
   "243.000000,243.500000,244.000000,244.300000,244.700000,245.000000,245.000000,245.200000,245.500000,250.000000,250.800000,251.000000,251.000000";
   "232.100000,232.700000,233.000000,234.000000,234.300000,234.700000,235.000000,235.300000,235.700000,236.200000,236.800000,236.600000,236.100000";
   "226.400000,226.800000,227.000000,227.400000,228.000000,228.800000,229.000000,229.800000,229.700000,230.300000,230.400000,230.300000,230.000000";
   "222.700000,222.800000,222.900000,223.200000,223.500000,224.000000,224.000000,224.500000,225.000000,225.200000,225.300000,225.000000,224.900000";
   "209.800000,210.000000,210.200000,210.400000,210.600000,210.800000,211.000000,211.000000,211.200000,211.300000,212.000000,212.100000,211.800000";
   "193.000000,193.000000,193.000000,193.000000,193.000000,193.000000,193.000000,193.000000,193.000000,193.000000,193.000000,193.000000,193.000000";
   ""]%pylit.
(** tests/test_outputs/test_2010_annotated.csv *)
Definition annotated_4010 : str := text
  ["Number of header lines; NASA Ames sub-format code,53,4010";
   "Name of data creator,De Rudder, Anne";
   "Institute of data creator,Rutherford Appleton Laboratory, Chilton OX11 0QX, UK - Tel.: +44 (0) 1235 445837";
   "Instrument or model name,Imaginary 3-D stratospheric radiative model";
   "Project name,NERC Data Grid (NDG) project";
   "File number; Total number of files,13,13";
   "Starting date of data (YYYY MM DD); File creation date (YYYY MM DD),1980 6 21,2002 10 31";
   "Interval between coordinate variable values (zero if not used),5.0,-30.0,30.0,6.0";
   "Length of coordinate variables,13,7,2";
   "Number of coordinate variable values explicity defined in header,1,1,1";
   "Values of coordinate variable,-30";
   "Values of coordinate variable,90";
   "Values of coordinate variable,20";
   "Name of coordinate variable (with units) 1,Longitude (degrees)";
   "Name of coordinate variable (with units) 2,Latitude (degrees)";
   "Name of coordinate variable (with units) 3,Altitude (km)";
   "Name of coordinate variable (with units) 4,Universal time (hours)";
   "Number of primary variables defined,1";
   "Scale factors for each primary variable,1.0";
   "Missing values for each primary variable,1000.0";
   "Name of primary variable (with units) 1,Temperature (K)";
   "Number of auxiliary variables,0";
   "Number of lines of special comments,19";
   "Special comments line 1,Example of FFI 4010.";
   "Special comments line 2,This example illustrating NASA Ames file format index 4010 is entirely fictitious.";
   "Special comments line 3,Data have been made up for the purpose of illustrating the use of the format. They";
   "Special comments line 4,consist in an imaginary calculated temperature distribution over a longitude-lati-";
   "Special comments line 5,tude-altitude grid at 6 o'clock and noon on the 21st of June 1980. The grid is";
   "Special comments line 6,defined in lines 8, 9, 11, 12 and 13. Longitude ranges from 30 degrees West to 30";
   "Special comments line 7,degrees East by intervals of 5 degrees. Latitude ranges from 90 North to 90 South by";
   "Special comments line 8,negative intervals of 30 degrees. Altitude takes the two values of 20 and 50 km.";
   "Special comments line 9,If the temperature is written as T(lon, lat, alt, time), the record below thus reads,";
   "Special comments line 10,for each of the two times t = 6 and t = 12,";
   "Special comments line 11,";
   "Special comments line 12,t";
   "Special comments line 13,T(-30, 90, 20, t) . . . T(30, 90, 20, t)";
   "Special comments line 14,. . .                   . . .";
   "Special comments line 15,T(-30, -90, 20, t). . . T(30, -90, 20, t)";
   "Special comments line 16,T(-30, 90, 50, t) . . . T(30, 90, 50, t)";
   "Special comments line 17,. . .                   . . .";
   "Special comments line 18,T(-30, -90, 50, t). . . T(30, -90, 50, t)";
   "Special comments line 19,";
   "Number of lines of normal comments,10";
   "Normal comments line 1,The files included in this data set illustrate each of the 9 NASA Ames file format";
   "Normal comments line 2,indices (FFI). A detailed description of the NASA Ames format can be found on the Web";
   "Normal comments line 3,site of the British Atmospheric Data Centre (BADC) at";
   "Normal comments line 4,http://www.badc.rl.ac.uk/help/formats/NASA-Ames/";
   "Normal comments line 5,E-mail contact: badc@rl.ac.uk";
   "Normal comments line 6,Reference: S. E. Gaines and R. S. Hipskind, Format Specification for Data Exchange,";
   "Normal comments line 7,Version 1.3, 1998. This work can be found at";
   "Normal comments line 8,http://cloud1.arc.nasa.gov/solve/archiv/archive.tutorial.html and a copy of it at";
   "Normal comments line 9,http://www.badc.rl.ac.uk/help/formats/NASA-Ames/G-and-H-June-1998.html";
   "Normal comments line 10,";
   "Data section,6";
   "Data section,230,230,230,230,230,230,230,230,230,230,230,230,230";
   "Data section,216,216.5,217,218,218.5,219,220,220.4,220.4,220.9,221.3,221,220.7";
   "Data section,210.6,211,211.4,211.8,212.2,212.6,213,213,213.1,213,213.5,213,213.1";
   "Data section,205.4,206,206.6,207.2,207.8,208.4,209,209.2,209.8,210.3,210,209.8,209.7";
   "Data section,204,204.6,205,205.7,206.2,206.8,207,207.4,207.8,208.2,208.6,208.3,208";
   "Data section,194.7,195.2,196,196.6,197.2,197.5,198,198.4,198.7,198.9,199.3,199.5,199.1";
   "Data section,185,185,185,185,185,185,185,185,185,185,185,185,185";
   "Data section,260,260,260,260,260,260,260,260,260,260,260,260,260";
   "Data section,230,230.5,231,233,233.7,234.2,235,235.5,236,236.5,237,237.5,238";
   "Data section,217.6,218.3,219,219.3,219.7,220,225,225.8,226.4,227,227.8,228.5,229.1";
   "Data section,216.2,216.7,217,217.4,218.1,218.5,219,219.8,221,221.6,222,223,224";
   "Data section,212.1,212.7,213,213.5,213.7,214,214,214.5,215.1,216,217,218,219";
   "Data section,198.4,199,199.4,200,200.6,201.1,201,201.5,202,202.8,203.4,204,205";
   "Data section,183,183,183,183,183,183,183,183,183,183,183,183,183";
   "Data section,12";
   "Data section,240,240,240,240,240,240,240,240,240,240,240,240,240";
   "Data section,228.6,228.7,228.8,229,229.3,229.8,230,230.5,231,231.5,232,231.5,231";
   "Data section,221.3,221.7,222,222.4,222.6,223,223,223.6,224,224.4,225,224.5,224";
   "Data section,216.8,217,217.3,217.8,218,218.4,219,219.3,219.6,220.3,220.8,219.9,219";
   "Data section,215.1,215.4,215.7,216,216.3,216.6,217,217.5,218,218.6,219,218.9,218.4";
   "Data section,207.4,207.5,207.6,207.7,207.8,207.9,208,208.2,208.4,208.6,208.3,208,208.3";
   "Data section,195,195,195,195,195,195,195,195,195,195,195,195,195";
   "Data section,270,270,270,270,270,270,270,270,270,270,270,270,270";
   "Data section,243,243.5,244,244.3,244.7,245,245,245.2,245.5,250,250.8,251,251";
   "Data section,232.1,232.7,233,234,234.3,234.7,235,235.3,235.7,236.2,236.8,236.6,236.1";
   "Data section,226.4,226.8,227,227.4,228,228.8,229,229.8,229.7,230.3,230.4,230.3,230";
   "Data section,222.7,222.8,222.9,223.2,223.5,224,224,224.5,225,225.2,225.3,225,224.9";
   "Data section,209.8,210,210.2,210.4,210.6,210.8,211,211,211.2,211.3,212,212.1,211.8";
   "Data section,193,193,193,193,193,193,193,193,193,193,193,193,193";
   ""]%pylit.
Example recorded_4010 : written na_4010 out_4010 csv_4010 (Some annotated_4010) = true.
Proof. vm_compute. reflexivity. Qed.
Example compared_4010 : compared na_4010 out_4010 csv_4010 = true.
Proof. vm_compute. reflexivity. Qed.

(** ** A NetCDF file *)
(** tests/test_outputs/1010.nc is from na2nc of nappy 2.0.2, see its attribute
    [history].  The names, attributes and numbers below are in the bytes of this
    file, the numbers as binary64. *)
Definition shown (v : pyv b64) : str :=
  match v with
  | PStr s => s | PInt z => dec_of_Z z | PNum x => b_repr x
  | PList l => join (lit ", ") (map (fun x => match x with PInt z => dec_of_Z z | PNum x => b_repr x | _ => lit "?" end) l)
  | PNone => lit "None"
  end.
Definition shown_attrs (l : list (str * gval b64)) : list (str * str) := map (fun p => (fst p, shown (g_val (snd p)))) l.
Definition nc_1010 : Res (dataset b64) :=
  match convertNAToNC (plain_set SAll [] (lit "2024-02-06 15:13:56") (lit "2.0.2")) (lit "1010.na") na_1010 (Some (lit "1010.nc")) (lit "w") (fun _ => None) with
  | (Ok n, fs) => match fs n with Some d => if str_eqb n (lit "1010.nc") then Ok d else Err EUnmodelled | None => Err EUnmodelled end
  | (Err e, _) => Err e
  end.
Definition nc_vars (d : Res (dataset b64)) : list (str * (list (str * str) * option str * str)) :=
  match d with
  | Ok d => map (fun v => (v_name v, (shown_attrs (n_attrs (v_info v)), option_map shown (v_miss v), shown (v_data v)))) (ds_vars d)
  | Err _ => []
  end.
Definition nc_axes (d : Res (dataset b64)) : list (list (str * list (str * str) * list str)) :=
  match d with
  | Ok d => map (fun v => map (fun a => (ax_name a, shown_attrs (n_attrs (ax_info a)), map b_repr (ax_vals a))) (v_axes v)) (ds_vars d)
  | Err _ => []
  end.
Definition entry (name units long_name number_name number fill : pylit) (values : list pylit) : str * (list (str * str) * option str * str) :=
  (lit name, ([(lit "units", lit units); (lit "long_name", lit long_name); (lit "title", lit long_name); (lit number_name, lit number)],
              Some (lit fill), join (lit ", ") (map lit values))).
(** The fill value of the first variable is 1e8 in the file, where the values are
    multiplied by the scale factor and the missing value is 1e20 (C54). *)
Example recorded_1010_nc_vars : nc_vars nc_1010 =
  [entry "molecular_oxygen_concentration"%pylit "cm-3"%pylit "molecular_oxygen_concentration"%pylit "nasa_ames_var_number"%pylit "0"%pylit "100000000.0"%pylit
     ["1.7e+18"; "8.1e+17"; "3.6e+17"; "1.6e+17"; "1e+20"; "3.5e+16"; "1.7e+16"; "8900000000000000.0"; "4800000000000000.0"; "2600000000000000.0"; "1500000000000000.0"; "820000000000000.0"; "420000000000000.0"; "200000000000000.0"; "90000000000000.0"; "37000000000000.0"; "12500000000000.0"; "4700000000000.0"; "1900000000000.0"]%pylit;
   entry "ozone_concentration"%pylit "cm-3"%pylit "ozone_concentration"%pylit "nasa_ames_var_number"%pylit "1"%pylit "100000000.0"%pylit
     ["1000000000000.0"; "1100000000000.0"; "2900000000000.0"; "3200000000000.0"; "100000000000000.0"; "2000000000000.0"; "1000000000000.0"; "320000000000.0"; "100000000000.0"; "32000000000.0"; "1000000000.0"; "3200000000.0"; "1000000000.0"; "320000000.0"; "140000000.0"; "100000000.0"; "110000000.0"; "13000000.0"; "1700000.0"]%pylit;
   entry "o_3p_concentration"%pylit "cm-3"%pylit "o_3p_concentration"%pylit "nasa_ames_var_number"%pylit "2"%pylit "100000000.0"%pylit
     ["13000.0"; "55000.0"; "940000.0"; "6700000.0"; "1000000000000.0"; "240000000.0"; "1200000000.0"; "3700000000.0"; "6500000000.0"; "8400000000.0"; "6500000000.0"; "5000000000.0"; "4000000000.0"; "3800000000.0"; "14000000000.0"; "30000000000.0"; "300000000000.0"; "330000000000.0"; "320000000000.0"]%pylit;
   entry "o_1d_concentration"%pylit "cm-3"%pylit "o_1d_concentration"%pylit "nasa_ames_var_number"%pylit "3"%pylit "10000.0"%pylit
     ["10000.0"; "10000.0"; "0.9"; "5.0"; "10000.0"; "100.0"; "330.0"; "600.0"; "610.0"; "440.0"; "260.0"; "150.0"; "96.0"; "67.0"; "70.0"; "120.0"; "420.0"; "490.0"; "1200.0"]%pylit;
   entry "pressure"%pylit "hPa"%pylit "pressure"%pylit "nasa_ames_aux_var_number"%pylit "0"%pylit "10000.0"%pylit
     ["265.0"; "121.1"; "55.3"; "25.5"; "12.0"; "5.7"; "2.3"; "1.5"; "0.8"; "0.43"; "0.22"; "0.11"; "0.052"; "0.024"; "0.011"; "0.0045"; "0.0018"; "0.00076"; "0.00032"]%pylit;
   entry "air_concentration"%pylit "cm-3"%pylit "air_concentration"%pylit "nasa_ames_aux_var_number"%pylit "1"%pylit "100000000.0"%pylit
     ["8.61e+18"; "4.04e+18"; "1.85e+18"; "8.33e+17"; "3.83e+17"; "1.74e+17"; "6.67e+16"; "4.12e+16"; "2.14e+16"; "1.19e+16"; "6450000000000000.0"; "3420000000000000.0"; "1710000000000000.0"; "836000000000000.0"; "403000000000000.0"; "172000000000000.0"; "69800000000000.0"; "29300000000000.0"; "11900000000000.0"]%pylit].
Proof. vm_compute. reflexivity. Qed.
Example recorded_1010_nc_axes : nc_axes nc_1010 =
  repeat [(lit "altitude", [(lit "long_name", lit "Altitude (km)"); (lit "units", lit "km"); (lit "name", lit "altitude")],
           map lit ["10.0"; "15.0"; "20.0"; "25.0"; "30.0"; "35.0"; "40.0"; "45.0"; "50.0"; "55.0"; "60.0"; "65.0"; "70.0"; "75.0"; "80.0"; "85.0"; "90.0"; "95.0"; "100.0"]%pylit)] 6.
Proof. vm_compute. reflexivity. Qed.
(** The comment is at another place in the file than the other attributes, the
    order of the others is the order in the file. *)
Definition comment_1010 : str := text
  ["==== Special Comments follow ====";
   "Example of FFI 1010.";
   "This example illustrating NASA Ames file format index 1010 combines the US Standard";
   "Atmosphere 1976 (for the auxiliary variables Pressure and Air Concentration) and some";
   "results of a 1-D model (for the dependent variables - oxygen compounds concentrations),";
   "as quoted in G. Brasseur and S. Solomon, Aeronomy of the Middle Atmosphere,";
   "Reidel, 1984 (pp. 46 & 211). The first date on line 7 (1st of January 1976) is fictitious";
   "since the parameters are yearly averages. We have signalled the absence of calculated";
   "value at 30 km by using the ""missing value"" flags (see line 12). The missing value flag";
   "is also used to give account for the fact that there is virtually no O(1D) present below";
   "the altitude of 20 km.";
   "==== Special Comments end ====";
   "==== Normal Comments follow ====";
   "The files included in this data set illustrate each of the 9 NASA Ames file format indices";
   "(FFI). A detailed description of the NASA Ames format can be found on the Web site of the";
   "British Atmospheric Data Centre (BADC) at http://www.badc.rl.ac.uk/help/formats/NASA-Ames/";
   "E-mail contact: badc@rl.ac.uk";
   "Reference: S. E. Gaines and R. S. Hipskind, Format Specification for Data Exchange,";
   "Version 1.3, 1998. The work referenced above can be found at";
   "http://cloud1.arc.nasa.gov/solve/archiv/archive.tutorial.html and a copy of it at";
   "http://www.badc.rl.ac.uk/help/formats/NASA-Ames/G-and-H-June-1998.html";
   "Altitude (km) Pressure (mb)    [M] (cm-3)                 < 2 auxiliary dependent variables >";
   "O2 (cm-3)     O3 (cm-3)  O(3P) (cm-3)  O(1D) (cm-3)   < 4 primary dependent variables >";
   "==== Normal Comments end ===="]%pylit.
Example recorded_1010_nc_globals : match nc_1010 with Ok d => shown_attrs (ds_attrs d) | Err _ => [] end =
  [(lit "no_of_nasa_ames_header_lines", lit "45"); (lit "file_format_index", lit "1010");
   (lit "institution", lit "De Rudder, Anne (ONAME from NASA Ames file); Rutherford Appleton Laboratory, Chilton OX11 0QX, UK - Tel.: +44 (0) 1235 445837 (ORG from NASA Ames file).");
   (lit "source", lit "BISA 1-D atmospheric model"); (lit "title", lit "NERC Data Grid (NDG) project");
   (lit "file_number_in_set", lit "3"); (lit "total_files_in_set", lit "13");
   (lit "history", text ["2002-10-30 - NASA Ames File created/revised."; ""; "2024-02-06 15:13:56 - Converted to Xarray (NetCDF) format using nappy-2.0.2."]%pylit);
   (lit "first_valid_date_of_data", lit "1976, 1, 1");
   (lit "comment", comment_1010)].
Proof. vm_compute. reflexivity. Qed.
