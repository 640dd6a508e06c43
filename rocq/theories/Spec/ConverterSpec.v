(** What properties C123 to C125 say about the dictionaries of a converter. *)
From Coq Require Import List NArith ZArith Bool.
From Verif Require Import Py.Str Py.Res Py.Num Py.Arith Model.Dict Model.CommonUtils Model.NAWrite Model.NCWrite Model.Xarray Model.Collector Model.Converter Spec.WriteSpec.
Import ListNotations.

Section Spec.
Context {num : Type}.
Local Notation na := (na num).

(** A converter as it comes from one of the constructors. *)
Definition new (x : conv num) : Prop :=
  exists E vars globals ffi s nc, x = new_xarray E vars globals ffi s \/ x = new_nc E nc vars globals ffi s \/ x = new_objects E vars globals ffi s.
(** The call is not [writeNAFiles]. *)
Definition no_write (c : cop num) : Prop := forall fuel w, c <> CWrite fuel w.

(** The items that writing may change: those that can be given by the user, the
    comments with their counts, and three lists that the writers turn round. *)
Definition touched : list key := [kDATE; kRDATE; kANAME; kMNAME; kONAME; kORG; kSNAME; kVNAME; kSCOM; kNCOM; kNSCOML; kNNCOML; kDX; kNX; kXNAME].
(** All other items are the same.  (A file format index that is no integer is
    replaced.) *)
Definition kept (d d' : na) : Prop :=
  forall k, ~ In k touched -> (k = kFFI -> exists z, d kFFI = Some (PInt z)) -> d' k = d k.

(** Writing the dictionary leaves nothing behind: given comments replace the old
    ones, there are no column headers, and the lists that are turned round are
    the same in reverse. *)
Definition steady (s : NCWrite.settings (num := num)) (no_header : bool) (d : na) : Prop :=
  (st_rule s = RReplace \/ forall p, In p (st_overriders s) -> fst p <> kSCOM /\ fst p <> kNCOM) /\
  exists z, d kFFI = Some (PInt z) /\
    (st_headers s = false \/ ~ In z [1001; 1010; 2110]%Z \/ exists n, d kNAUXV = Some (PInt n) /\ (0 < n)%Z) /\
    forall c, getNAFileClass z = Ok c -> forall k, In k (left_reversed c no_header) -> palindromic (attr d k).
End Spec.
