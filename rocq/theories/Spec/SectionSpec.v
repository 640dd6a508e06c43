(** Which items of a dictionary belong to which section of the file. *)
From Coq Require Import List.
From Verif Require Import Model.Dict Model.CommonUtils.
Import ListNotations.

(** What the data section is made of: the values and their numbers. *)
Definition data_items (c : cls) : list key :=
  match c with
  | C1001 => [kX; kV; kNV]
  | C1010 => [kX; kV; kNV; kA; kNAUXV]
  | C1020 => [kX; kV; kNV; kA; kNAUXV; kNVPM]
  | C2010 | C3010 | C4010 => [kX; kV; kNV; kA; kNAUXV; kNX]
  | C2110 | C2310 => [kX; kV; kNV; kA; kNAUXV; kNX]
  | C2160 => [kX; kV; kNV; kA; kNAUXV; kNAUXC; kNX]
  end.
(** What only the data section is made of: the values.  The header of the files
    2010, 3010 and 4010 has the values of the axes. *)
Definition only_data (c : cls) : list key :=
  match c with
  | C1001 | C1010 | C1020 => [kX; kV; kA]
  | C2010 | C3010 | C4010 => [kV; kA]
  | C2110 | C2160 | C2310 => [kX; kV; kA; kNX]
  end.
