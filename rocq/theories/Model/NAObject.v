(** nappy/na_file/na_core.py: item access on an object and the getters for the
    header items that do not belong to variables.  The variable getters are in
    Model/NACore. *)
From Coq Require Import List NArith ZArith Bool.
From Verif Require Import Py.Str Py.Res Py.Num Model.Dict.
Import ListNotations.

(** na_core.py:27-32: the names of the attributes. *)
Definition key_text (k : key) : str :=
  match k with
  | kA => lit "A" | kAMISS => lit "AMISS" | kANAME => lit "ANAME" | kASCAL => lit "ASCAL" | kDATE => lit "DATE"
  | kDX => lit "DX" | kFFI => lit "FFI" | kIVOL => lit "IVOL" | kLENA => lit "LENA" | kLENX => lit "LENX"
  | kMNAME => lit "MNAME" | kNAUXC => lit "NAUXC" | kNAUXV => lit "NAUXV" | kNCOM => lit "NCOM" | kNIV => lit "NIV"
  | kNLHEAD => lit "NLHEAD" | kNNCOML => lit "NNCOML" | kNSCOML => lit "NSCOML" | kNV => lit "NV" | kNVOL => lit "NVOL"
  | kNVPM => lit "NVPM" | kNX => lit "NX" | kNXDEF => lit "NXDEF" | kONAME => lit "ONAME" | kORG => lit "ORG"
  | kRDATE => lit "RDATE" | kSCOM => lit "SCOM" | kSNAME => lit "SNAME" | kV => lit "V" | kVMISS => lit "VMISS"
  | kVNAME => lit "VNAME" | kVSCAL => lit "VSCAL" | kX => lit "X" | kXNAME => lit "XNAME"
  | kIGN => lit "ignored_header_lines"
  end.

Section Object.
Context {num : Type}.
Local Notation pyv := (pyv num).
Local Notation na := (na num).

(** na_core.py:47-59 [__getitem__]: [hasattr] and [getattr].  [other] are the
    names that the object has besides the attributes for dictionary items
    (methods, [filename], [na_dict], ...); what they are is not modelled. *)
Inductive item := Value (v : pyv) | Other (name : str).
Definition getitem (other : str -> bool) (obj : na) (name : str) : item :=
  match find (fun k => str_eqb (key_text k) name) all_keys with
  | Some k => Value (attr obj k)
  | None => if other name then Other name else Value (PStr (lit "Item '" ++ name ++ lit "' not found."))
  end.

(** na_core.py:220-295. *)
Definition getNumHeaderLines (obj : na) : pyv := attr obj kNLHEAD.
Definition getFFI (obj : na) : pyv := attr obj kFFI.
Definition getOriginator (obj : na) : pyv := attr obj kONAME.
Definition getOrganisation (obj : na) : pyv := attr obj kORG.
Definition getOrg (obj : na) : pyv := getOrganisation obj.
Definition getSource (obj : na) : pyv := attr obj kSNAME.
Definition getMission (obj : na) : pyv := attr obj kMNAME.
Definition getVolumes (obj : na) : pyv * pyv := (attr obj kIVOL, attr obj kNVOL).
Definition getFileDates (obj : na) : pyv * pyv := (attr obj kDATE, attr obj kRDATE).
Definition getNormalComments (obj : na) : pyv := attr obj kNCOM.
Definition getSpecialComments (obj : na) : pyv := attr obj kSCOM.
End Object.
