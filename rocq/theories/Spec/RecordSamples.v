(** Concrete well-formed records for each FFI, with whole-valued floating point
    numbers (Spec/WholeNum.v), and their dictionaries. *)
From Coq Require Import List NArith ZArith.
From Verif Require Import Py.Str Py.Res Py.Num Model.Dict Model.CommonUtils Spec.WholeNum
  Spec.Samples Spec.TextSpec Spec.Records.
Import ListNotations.

Definition fl (z : Z) : number whole := NF (Whole z).
Definition fls : list Z -> list (number whole) := map fl.
Definition i_ (z : Z) : number whole := NI z.
Definition va (s : pylit) : var whole := mkVar (fl 1) (fl 9999) (lit s).
Arguments va _%pylit_scope.
Definition sample_common : Records.common := mkCommon (lit "De Witt, B.") (lit "BADC") (lit "Sonde {x} data") (lit "Test")
  1 2 (1969, 1, 1)%Z (2002, 10, 31)%Z [lit "special comment"] [lit "normal"; []; lit "comment 2 {with braces}"].

Definition s1001 : r1001 whole := mk1001 sample_common [va "temp (K)"; va "pressure (hPa)"] (fl 0) (lit "time (s)")
  (fls [1; 2; 4]%Z) [fls [10; 20; 30]%Z; [fl (-1); i_ 7; fl 9999]].
Definition s1010 : r1010 whole := mk1010 sample_common [va "temp (K)"; va "pressure (hPa)"] [va "lat"; va "lon"]
  (fl 0) (lit "time (s)") (fls [1; 2]%Z) [fls [50; 51]%Z; fls [0; 1]%Z] [fls [10; 20]%Z; fls [-1; -2]%Z].
Definition s1020 : r1020 whole := mk1020 sample_common [va "temp (K)"; va "pressure (hPa)"] [va "lat"]
  (fl 1) 2 (lit "time (s)") (fls [1; 3]%Z) [fls [50; 51]%Z] [fls [10; 20; 30; 40]%Z; fls [-1; -2; -3; -4]%Z].
Definition s2010 : r2010 whole := mk2010 sample_common [va "temp (K)"] [va "aux"]
  (fl 0) (lit "lat (deg)") [3]%nat [mkAxis (fl 5) (fls [10]%Z) (lit "lon (deg)")]
  (fls [1; 2]%Z) [fls [7; 8]%Z] [[fls [1; 2; 3]%Z; fls [4; 5; 6]%Z]].
(** two listed values on both bounded axes *)
Definition s3010 : r2010 whole := mk2010 sample_common [va "temp (K)"; va "hum (%)"] []
  (fl 0) (lit "time") [3; 2]%nat [mkAxis (fl 5) (fls [10; 15]%Z) (lit "lat (deg)"); mkAxis (fl 0) (fls [20; 23]%Z) (lit "lon (deg)")]
  (fls [1; 2]%Z) [] [[[fls [1; 2]%Z; fls [3; 4]%Z; fls [5; 6]%Z]; [fls [7; 8]%Z; fls [9; 10]%Z; fls [11; 12]%Z]];
                     [[fls [0; 0]%Z; fls [0; 4]%Z; fls [5; 0]%Z]; [fls [7; 0]%Z; fls [9; 0]%Z; fls [0; 1]%Z]]].
(** one listed value on the first bounded axis, two on the second *)
Definition s3010b : r2010 whole := mk2010 sample_common [va "temp (K)"] []
  (fl 0) (lit "time") [3; 2]%nat [mkAxis (fl 5) (fls [10]%Z) (lit "lat (deg)"); mkAxis (fl 0) (fls [20; 23]%Z) (lit "lon (deg)")]
  (fls [1; 2]%Z) [] [[[fls [1; 2]%Z; fls [3; 4]%Z; fls [5; 6]%Z]; [fls [7; 8]%Z; fls [9; 10]%Z; fls [11; 12]%Z]]].
Definition s4010 : r2010 whole := mk2010 sample_common [va "temp (K)"] [va "aux"]
  (fl 0) (lit "time") [1; 2; 2]%nat
  [mkAxis (fl 0) (fls [5]%Z) (lit "level"); mkAxis (fl 5) (fls [10; 15]%Z) (lit "lat (deg)"); mkAxis (fl 1) (fls [20]%Z) (lit "lon (deg)")]
  (fls [1]%Z) [fls [3]%Z] [[[[fls [1; 2]%Z; fls [3; 4]%Z]]]].
Definition s2110 : r2110 whole := mk2110 sample_common [va "temp (K)"; va "hum (%)"] [va "number of levels"; va "aux"]
  (fl 0, fl 1) (lit "time (s)", lit "height (m)") [mkMark (fl 1) (fls [100; 200]%Z); mkMark (fl 2) []; mkMark (fl 3) (fls [150]%Z)]
  [fls [2; 0; 1]%Z; fls [5; 6; 7]%Z] [[fls [1; 2]%Z; []; fls [3]%Z]; [fls [4; 5]%Z; []; fls [6]%Z]].
Definition s2160 : r2160 whole := mk2160 sample_common [va "temp (K)"] [va "number of levels"] [mkCvar 10 (lit "zzz") (lit "site")]
  (fl 0) (fl 8) (lit "station", lit "height (m)") [mkMark (lit "ABC") (fls [100; 200]%Z); mkMark (lit "DEF") (fls [150]%Z)]
  [fls [2; 1]%Z] [[lit "north pole"; lit "south"]] [[fls [1; 2]%Z; fls [3]%Z]].
Definition s2310 : r2310 whole := mk2310 sample_common (va "temp (K)") [va "n"; va "start"; va "step"]
  [fl 0; NI 10; NI 20] (lit "height (m)", lit "time (s)") (fls [1; 2]%Z) [2; 3]%nat
  [fls [2; 3]%Z; fls [100; 150]%Z; fls [10; 20]%Z] [fls [1; 2]%Z; fls [3; 4; 5]%Z].

(** The dictionary with these items and some NLHEAD. *)
Definition dict_of (items : list (key * pyv whole)) : na whole := of_list ((kNLHEAD, PInt 17) :: items).

(** As [s1001], with whole numbers of type [int] as scale factors. *)
Definition s1001i : r1001 whole := mk1001 sample_common [mkVar (NI 1) (NI 9999) (lit "temp (K)")] (NI 0) (lit "time (s)")
  (fls [1; 2; 4]%Z) [fls [10; 20; 30]%Z].

(** FFI 2310 with two variables. *)
Definition d2310_two : na whole := of_list ((kNLHEAD, PInt 17) ::
  common_items 2310 2 sample_common ++ var_items [va "temp (K)"; va "hum (%)"] ++ aux_items [va "n"; va "start"; va "step"] ++
  [(kDX, nums_pv (fls [0]%Z)); (kXNAME, strs_pv [lit "height (m)"; lit "time (s)"]);
   (kX, PList [PList [pv (fl 1); nums_pv [fl 100]]]); (kNX, PList [PInt 2]);
   (kA, PList (map nums_pv [fls [2]%Z; fls [100]%Z; fls [10]%Z]));
   (kV, PList [PList [nums_pv (fls [1; 2]%Z)]; PList [nums_pv (fls [3; 4]%Z)]])]).
