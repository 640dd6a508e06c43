(** nappy/na_file/na_core.py: the dictionary view and the getters.  The
    attributes of an object are a dictionary as in Model/Dict.v; an attribute
    that was never set is None. *)
From Coq Require Import List NArith ZArith Bool.
From Verif Require Import Py.Str Py.Res Py.Num Model.Dict Model.CommonUtils.
Import ListNotations.
Local Open Scope N_scope.

(** Split at the first occurrence of [d]: text before and after it. *)
Fixpoint cut_at (d : chr) (s : str) : option (str * str) :=
  match s with
  | [] => None
  | c :: t => if c =? d then Some ([], t)
              else match cut_at d t with
                   | Some (a, b) => Some (c :: a, b)
                   | None => None
                   end
  end.

(** The pattern of na_core.py:44 without its white space at both ends, on a
    text without newline: a group that matches anything, a parenthesis that
    contains the second group, a group that matches anything.  The
    first group is greedy: the last opening parenthesis that is followed by at
    least one character and then a closing one; the second group is as short as
    possible but not empty. *)
Fixpoint match_par (s : str) : option (str * str * str) :=
  match s with
  | [] => None
  | c :: t =>
      match match_par t with
      | Some (v1, u, v2) => Some (c :: v1, u, v2)
      | None =>
          if c =? c_lpar then
            match t with
            | [] => None
            | d :: t' => match cut_at c_rpar t' with
                         | Some (u, v2) => Some ([], d :: u, v2)
                         | None => None
                         end
            end
          else None
      end
  end.

(** na_core.py:44 and :73, the regular expression matched by hand.  Leading
    white space is dropped.  A dot does not match a newline, so the groups lie
    on the first line and only white space may follow it. *)
Definition var_units_match (item : str) : option (str * str * str) :=
  let s := lstrip item in
  match cut_at c_nl s with
  | None => match_par s
  | Some (line, tail) => if is_nil (strip tail) then match_par line else None
  end.

(** na_core.py:62-78 [_attemptVarAndUnitsMatch].  [callback] is
    [self.var_and_units_callback].
    Simplification: the pattern is the default one (the setter
    [var_and_units_pattern] is not modelled). *)
Definition attemptVarAndUnitsMatch (callback : option (str -> str * option str)) (item : str)
  : str * option str :=
  match callback with
  | Some f => let (v, u) := f item in (strip v, u)
  | None =>
      match var_units_match item with
      | Some (v1, u, v2) => (strip (v1 ++ lit " " ++ v2), Some u)
      | None => (strip item, None)
      end
  end.

Section Core.
Context {num : Type}.
Local Notation pyv := (pyv num).
Variable callback : option (str -> str * option str).
Variable h : na num.     (* the attributes of the object *)
Open Scope res_scope.



(** A name given to the pattern must be a string. *)
Definition as_str (v : pyv) : Res str :=
  match v with PStr s => Ok s | _ => Err ETypeError end.

(** (variable, units, missing value, scale factor). *)
Record var_info := mkInfo { i_name : str; i_units : option str; i_miss : pyv; i_scale : pyv }.

(** na_core.py:192-196, :199-203, :206-210, :213-217. *)
Definition getMissingValue (i : nat) : Res pyv := index (attr h kVMISS) i.
Definition getScaleFactor (i : nat) : Res pyv := index (attr h kVSCAL) i.
Definition getAuxMissingValue (i : nat) : Res pyv := index (attr h kAMISS) i.
Definition getAuxScaleFactor (i : nat) : Res pyv := index (attr h kASCAL) i.

Definition name_of (k : key) (i : nat) : Res (str * option str) :=
  do v <- index (attr h k) i; do s <- as_str v; Ok (attemptVarAndUnitsMatch callback s).

(** na_core.py:120-129 [getVariable]. *)
Definition getVariable (i : nat) : Res var_info :=
  do p <- name_of kVNAME i;
  do miss <- getMissingValue i; do scale <- getScaleFactor i;
  Ok (mkInfo (fst p) (snd p) miss scale).

(** na_core.py:132-138 [getIndependentVariable]. *)
Definition getIndependentVariable (i : nat) : Res (str * option str) := name_of kXNAME i.

(** na_core.py:141-152 [getAuxVariable]. *)
Definition getAuxVariable (i : nat) : Res var_info :=
  do p <- name_of kANAME i;
  do miss <- getAuxMissingValue i;
  do scale <-
    match attr h kNAUXC with
    | PNone => getAuxScaleFactor i
    | nc => do c <- as_int nc; do v <- as_int (attr h kNAUXV);
            if (Z.of_nat i <? v - c)%Z then getAuxScaleFactor i else Ok PNone
    end;
  Ok (mkInfo (fst p) (snd p) miss scale).

(** na_core.py:155-164, :167-176, :179-189. *)
Definition getVariables : Res (list var_info) :=
  do nv <- as_int (attr h kNV); mapR getVariable (range nv).
Definition getIndependentVariables : Res (list (str * option str)) :=
  do niv <- as_int (attr h kNIV); mapR getIndependentVariable (range niv).
Definition getAuxVariables : Res (list var_info) :=
  match attr h kNAUXV with
  | PNone => Ok []
  | v => do n <- as_int v; mapR getAuxVariable (range n)
  end.
End Core.

(** An NACore object: attributes and the attribute [na_dict] (a dictionary). *)
Record core {num : Type} := mkCore { c_attrs : na num; c_dict : na num }.
Arguments core : clear implicits.
Arguments mkCore {num}. Arguments c_attrs {num}. Arguments c_dict {num}.

(** na_core.py:35-44 [__init__]: every attribute is None. *)
Definition core_new {num} : core num := mkCore (fun _ => Some PNone) na_empty.

(** na_core.py:96-110 [getNADict]: the attributes that are not None; the
    result is also stored. *)
Definition getNADict {num} (c : core num) : na num * core num :=
  let d : na num := fun k =>
    match c_attrs c k with None => None | Some PNone => None | Some v => Some v end in
  (d, mkCore (c_attrs c) d).

(** na_core.py:113-117 [setNADict]: a deep copy is stored in [na_dict]; the
    attributes are not touched. *)
Definition setNADict {num} (c : core num) (d : na num) : core num := mkCore (c_attrs c) d.
