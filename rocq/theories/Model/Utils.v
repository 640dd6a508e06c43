(** nappy/utils/common_utils.py: the helpers that do not belong to the file
    classes. *)
From Coq Require Import List NArith ZArith Bool.
From Verif Require Import Py.Str Py.Res Py.Num Model.Dict Model.TextParser Model.CommonUtils.
Import ListNotations.

(** common_utils.py:95-107 [getFileNameWithNewExtension].
    [base_name[-4:]] is the last four characters; [find] is relative to them,
    and the cut is at [len(base_name) + found], beyond the end. *)
Definition getFileNameWithNewExtension (input_file format : str) : str :=
  let last_four := slice_from input_file (-4)%Z in
  let found := find_str [c_dot] last_four in
  let base :=
    if (-1 <? found)%Z
    then slice_to input_file (Z.of_nat (length input_file) + found)%Z
    else input_file in
  base ++ [c_dot] ++ format.

(** [l[start:end]] for any integers. *)
Definition clip (n k : Z) : Z := if (k <? 0)%Z then Z.max 0 (n + k) else Z.min k n.
Definition slice {A} (l : list A) (a b : Z) : list A :=
  let n := Z.of_nat (length l) in
  firstn (Z.to_nat (clip n b - clip n a)) (skipn (Z.to_nat (clip n a)) l).

(** common_utils.py:110-127 [modifyNADictCopy].  The new dictionary has the
    keys of the old one.  [indict["X"][start:end]] of a string or list. *)
Definition modifyNADictCopy {num} `{NumOps num} (indict : na num) (v_new : pyv num)
    (start stop ivol nvol : Z) : Res (na num) :=
  let others : na num := fun k =>
    match indict k with
    | None => None
    | Some v => Some (match k with kV => v_new | kIVOL => PInt ivol | kNVOL => PInt nvol | _ => v end)
    end in
  match indict kX with
  | None => Ok others
  | Some (PList l) => Ok (upd others kX (PList (slice l start stop)))
  | Some (PStr s) => Ok (upd others kX (PStr (slice s start stop)))
  | Some _ => Err ETypeError
  end.

(** The loop [while len(items) > 0: ... items[0], items[1] ...; items = items[2:]]. *)
Fixpoint pairs (items : list str) : Res (list (str * str)) :=
  match items with
  | [] => Ok []
  | [_] => Err EIndexError
  | a :: b :: rest => bindR (pairs rest) (fun l => Ok ((a, b) :: l))
  end.

(** common_utils.py:171-184 [makeListFromCommaSepString]. *)
Definition makeListFromCommaSepString (s : str) : Res (list (str * str)) :=
  if Nat.even (count_chr c_comma s) then Err (ENappy E_OddItems)
  else pairs (split_chr c_comma s).

(** A Python dictionary with string keys: pairs in order of first insertion,
    [d[k] = v] keeps the place of an existing key. *)
Fixpoint sd_set (d : list (str * str)) (k v : str) : list (str * str) :=
  match d with
  | [] => [(k, v)]
  | (k', v') :: t => if str_eqb k k' then (k, v) :: t else (k', v') :: sd_set t k v
  end.
Fixpoint sd_get (d : list (str * str)) (k : str) : option str :=
  match d with
  | [] => None
  | (k', v') :: t => if str_eqb k k' then Some v' else sd_get t k
  end.

(** common_utils.py:155-168 [makeDictFromCommaSepString]. *)
Definition makeDictFromCommaSepString (s : str) : Res (list (str * str)) :=
  if Nat.even (count_chr c_comma s) then Err (ENappy E_OddItems)
  else bindR (pairs (split_chr c_comma s))
             (fun l => Ok (fold_left (fun d p => sd_set d (fst p) (snd p)) l [])).

(** common_utils.py:242-246 [safe_name].
    Simplification: [lower] changes ASCII letters only. *)
Definition safe_name (s : str) : str := replace_str (lit " ") (lit "_") (lower s).

(** common_utils.py:249-255 [fuzzy_contains]. *)
Definition fuzzy_contains (item : str) (seq : list str) : bool :=
  existsb (str_eqb (safe_name item)) (map safe_name seq).
