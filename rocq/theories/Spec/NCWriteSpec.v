(** Vocabulary for the files written by the NetCDF interface. *)
From Coq Require Import List NArith ZArith Bool.
From Verif Require Import Py.Str Py.Res Py.Num Model.Dict Model.CommonUtils Model.NARead Model.Utils Model.NCWrite Spec.Records Spec.NestedSpec.
Import ListNotations.

(** The number of blocks of at most [s] rows needed for [n] rows. *)
Definition block_count (n s k : nat) : Prop := (n <= k * s /\ (k = 0 \/ (k - 1) * s < n))%nat.
(** The blocks [group s l 0], ..., [group s l (k-1)] of a list. *)
Definition blocks {A} (s k : nat) (l : list A) : list (list A) := map (group s l) (seq 0 k).

(** Writing files one after the other, up to the first failure. *)
Fixpoint put_all {num} `{NumOps num} (o : opts num) (files : list (str * na num)) (fs : disk) : Res unit * disk :=
  match files with
  | [] => (Ok tt, fs)
  | (name, d) :: rest =>
      match put_file o false name d fs with
      | (Ok _, fs') => put_all o rest fs'
      | (Err e, fs') => (Err e, fs')
      end
  end.
(** Every name twice. *)
Definition twice (names : list str) : list str := flat_map (fun n => [n; n]) names.

(** Volume [i] (from 0) of [k]: rows [i*s] up to [i*s + s]. *)
Definition volume {num} (s k i : nat) (r : r1001 num) : r1001 num :=
  let c := r1_common r in
  mk1001 (mkCommon (c_oname c) (c_org c) (c_sname c) (c_mname c) (Z.of_nat i + 1) (Z.of_nat k) (c_date c) (c_rdate c)
            (c_scom c) (c_ncom c))
    (r1_vars r) (r1_dx r) (r1_xname r) (group s (r1_x r) i) (map (fun v => group s v i) (r1_v r)).

(** The file [name] on the disk reads back as exactly the entries (and what
    reading adds). *)
Definition reads_back {num} `{NumOps num} (fs : disk) (name : str) (c : cls) (items : list (key * pyv num)) : Prop :=
  exists content d' hl, sd_get fs name = Some content /\ read_file content 0 = Ok (c, d') /\
    is_dict d' (read_items hl ++ items).
