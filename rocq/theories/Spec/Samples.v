(** Concrete dictionaries used in the examples and as witnesses.  The number
    type is [Z] (Spec/ZNum.v). *)
From Coq Require Import List NArith ZArith.
From Verif Require Import Py.Str Py.Res Py.Num Model.Dict Model.CommonUtils Spec.ZNum.
Import ListNotations.

Definition of_list {num} (l : list (key * pyv num)) : na num := fun k =>
  match find (fun p => key_beq (fst p) k) l with Some p => Some (snd p) | None => None end.

Definition tx (l : pylit) : pyv Z := PStr (lit l).
Arguments tx _%pylit_scope.
Definition it (z : Z) : pyv Z := PInt z.
Definition nm (z : Z) : pyv Z := PNum z.
Definition ls (l : list (pyv Z)) : pyv Z := PList l.
Definition nms (l : list Z) : pyv Z := PList (map PNum l).
Definition its (l : list Z) : pyv Z := PList (map PInt l).

(** Four spaces, numbers in decimal, no annotation. *)
Definition opts0 : opts Z := mkOpts (lit "    ") dec_of_Z false (fun _ => None).
(** Annotated comma separated output. *)
Definition opts_ann : opts Z := mkOpts (lit ",") dec_of_Z true (fun i => Some (i ++ lit ":")).

Definition common (ffi niv : Z) : list (key * pyv Z) :=
  [(kNLHEAD, it 0); (kFFI, it ffi); (kONAME, tx "De Witt, B."); (kORG, tx "BADC"); (kSNAME, tx "Sonde");
   (kMNAME, tx "Test"); (kIVOL, it 1); (kNVOL, it 2); (kDATE, its [1969; 1; 1]%Z);
   (kRDATE, its [2002; 10; 31]%Z); (kNIV, it niv); (kNSCOML, it 1); (kSCOM, ls [tx "special comment"]);
   (kNNCOML, it 2); (kNCOM, ls [tx "normal"; tx "comment 2"])].
Definition vars (nv : Z) (names : list (pyv Z)) : list (key * pyv Z) :=
  [(kNV, it nv); (kVSCAL, nms (repeat 1%Z (Z.to_nat nv))); (kVMISS, nms (repeat 9999%Z (Z.to_nat nv)));
   (kVNAME, ls names)].
Definition aux (na : Z) (names : list (pyv Z)) : list (key * pyv Z) :=
  [(kNAUXV, it na); (kASCAL, nms (repeat 1%Z (Z.to_nat na))); (kAMISS, nms (repeat 9999%Z (Z.to_nat na)));
   (kANAME, ls names)].

Definition d1001 : na Z := of_list (common 1001 1 ++ vars 2 [tx "temp (K)"; tx "pressure (hPa)"] ++
  [(kDX, nms [0%Z]); (kXNAME, ls [tx "time (s)"]);
   (kX, nms [1; 2; 4]%Z); (kV, ls [nms [10; 20; 30]%Z; nms [-1; -2; 9999]%Z])]).
Definition d1010 : na Z := of_list (common 1010 1 ++ vars 2 [tx "temp (K)"; tx "pressure (hPa)"] ++
  aux 2 [tx "lat"; tx "lon"] ++
  [(kDX, nms [0%Z]); (kXNAME, ls [tx "time (s)"]);
   (kX, nms [1; 2]%Z); (kA, ls [nms [50; 51]%Z; nms [0; 1]%Z]); (kV, ls [nms [10; 20]%Z; nms [-1; -2]%Z])]).
Definition d1020 : na Z := of_list (common 1020 1 ++ vars 2 [tx "temp (K)"; tx "pressure (hPa)"] ++
  aux 1 [tx "lat"] ++
  [(kDX, nms [1%Z]); (kNVPM, it 2); (kXNAME, ls [tx "time (s)"]);
   (kX, nms [1; 3]%Z); (kA, ls [nms [50; 51]%Z]); (kV, ls [nms [10; 20; 30; 40]%Z; nms [-1; -2; -3; -4]%Z])]).
Definition d2010 : na Z := of_list (common 2010 2 ++ vars 1 [tx "temp (K)"] ++
  aux 1 [tx "aux"] ++
  [(kDX, nms [0; 5]%Z); (kNX, its [3]%Z); (kNXDEF, its [1]%Z);
   (kXNAME, ls [tx "lat (deg)"; tx "lon (deg)"]);
   (kX, ls [nms [1; 2]%Z; nms [10]%Z]); (kA, ls [nms [7; 8]%Z]);
   (kV, ls [ls [nms [1; 2; 3]%Z; nms [4; 5; 6]%Z]])]).
Definition d3010 : na Z := of_list (common 3010 3 ++ vars 1 [tx "temp (K)"] ++
  aux 0 [] ++
  [(kDX, nms [0; 5; 0]%Z); (kNX, its [3; 2]%Z); (kNXDEF, its [1; 2]%Z);
   (kXNAME, ls [tx "time"; tx "lat (deg)"; tx "lon (deg)"]);
   (kX, ls [nms [1; 2]%Z; nms [10]%Z; nms [20; 23]%Z]); (kA, ls []);
   (kV, ls [ls [ls [nms [1; 2]%Z; nms [3; 4]%Z; nms [5; 6]%Z];
                ls [nms [7; 8]%Z; nms [9; 10]%Z; nms [11; 12]%Z]]])]).
Definition d2110 : na Z := of_list (common 2110 2 ++ vars 2 [tx "temp (K)"; tx "hum (%)"] ++
  aux 2 [tx "number of levels"; tx "aux"] ++
  [(kDX, nms [0; 1]%Z); (kNX, its [2; 1]%Z); (kXNAME, ls [tx "time (s)"; tx "height (m)"]);
   (kX, ls [ls [nm 1; nms [100; 200]%Z]; ls [nm 2; nms [150]%Z]]);
   (kA, ls [nms [2; 1]%Z; nms [5; 6]%Z]);
   (kV, ls [ls [nms [1; 2]%Z; nms [3]%Z]; ls [nms [4; 5]%Z; nms [6]%Z]])]).
Definition d2160 : na Z := of_list (common 2160 2 ++ vars 1 [tx "temp (K)"] ++
  [(kNAUXV, it 2); (kNAUXC, it 1); (kASCAL, nms [1%Z]); (kAMISS, ls [nm 9999; tx "zzz"]);
   (kLENA, ls [PNone; it 10]); (kANAME, ls [tx "number of levels"; tx "site"]);
   (kDX, nms [0]%Z); (kLENX, it 8); (kNX, its [2; 1]%Z); (kXNAME, ls [tx "station"; tx "height (m)"]);
   (kX, ls [ls [tx "ABC"; nms [100; 200]%Z]; ls [tx "DEF"; nms [150]%Z]]);
   (kA, ls [nms [2; 1]%Z; ls [tx "north pole"; tx "south"]]);
   (kV, ls [ls [nms [1; 2]%Z; nms [3]%Z]])]).
Definition d2310 : na Z := of_list (common 2310 2 ++ vars 1 [tx "temp (K)"] ++
  aux 3 [tx "n"; tx "start"; tx "step"] ++
  [(kDX, nms [0]%Z); (kNX, its [2; 3]%Z); (kXNAME, ls [tx "height (m)"; tx "time (s)"]);
   (kX, ls [ls [nm 1; nms [100]%Z]; ls [nm 2; nms [150]%Z]]);
   (kA, ls [nms [2; 3]%Z; nms [100; 150]%Z; nms [10; 20]%Z]);
   (kV, ls [ls [nms [1; 2]%Z; nms [3; 4; 5]%Z]])]).
