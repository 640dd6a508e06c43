(** nappy/utils/compare_na.py and compare.py: comparison of files.  What is
    printed is in [Model/ComparePrint]. *)
From Coq Require Import List NArith ZArith Bool.
From Verif Require Import Py.Str Py.Res Py.Num Model.CommonUtils.
Import ListNotations.
Local Open Scope N_scope.

(** Operations that the comparison applies to floating point numbers. *)
Class CmpOps (num : Type) := {
  num_eqb  : num -> num -> bool;      (* a == b *)
  num_ltb  : num -> num -> bool;      (* a < b *)
  num_div  : num -> num -> num;       (* a / b, b not zero *)
  num_sub  : num -> num -> num;       (* a - b *)
  num_zero : num; num_one : num;
  num_tiny : num;                     (* 0.000000001 *)
  num_thr  : num                      (* equality_threshold = 0.01 *)
}.

(** [s.split(d)] for a non-empty separator of any length.  [skip] characters
    of an occurrence already found are dropped. *)
Fixpoint split_str_aux (d s : str) (skip : nat) : str * list str :=
  match s with
  | [] => ([], [])
  | c :: t =>
      match skip with
      | S k => split_str_aux d t k
      | O => if starts_with d s
             then let (w, ws) := split_str_aux d t (pred (List.length d)) in ([], w :: ws)
             else let (w, ws) := split_str_aux d t O in (c :: w, ws)
      end
  end.
(** [s.split(delimiter)]: None splits on white space, the empty string is an
    error. *)
Definition split_items (d : option str) (s : str) : Res (list str) :=
  match d with
  | None => Ok (split_ws s)
  | Some [] => Err EValueError
  | Some d => Ok (let (w, ws) := split_str_aux d s O in w :: ws)
  end.

(** compare_na.py:47 [letter_match]: an ASCII letter. *)
Definition is_letter (c : chr) : bool := ((65 <=? c) && (c <=? 90)) || ((97 <=? c) && (c <=? 122)).
Definition has_letter (s : str) : bool := existsb is_letter s.

Fixpoint strs_eqb (a b : list str) : bool :=
  match a, b with
  | [], [] => true
  | x :: a', y :: b' => str_eqb x y && strs_eqb a' b'
  | _, _ => false
  end.

Section Compare.
Context {num : Type} `{NumOps num} `{CmpOps num}.
Open Scope res_scope.

(** compare_na.py:126-133: the approximate comparison of different numbers;
    [true] means reported as different. *)
Definition approx_differ (a b : num) : bool :=
  let a := if num_eqb a num_zero then num_tiny else a in
  let b := if num_eqb b num_zero then num_tiny else b in
  let divided := num_div a b in
  let divided := if num_ltb divided num_one then num_div b a else divided in
  num_ltb num_thr (num_sub num_one divided).

(** compare_na.py:115-136, one pair of items.  Items that are not both numbers
    are compared as text; dividing texts is a TypeError. *)
Definition item_same (approx : bool) (x y : str) : Res bool :=
  match num_parse x, num_parse y with
  | Some a, Some b =>
      if num_eqb a b then Ok true
      else if approx then Ok (negb (approx_differ a b)) else Ok false
  | _, _ =>
      if str_eqb x y then Ok true else if approx then Err ETypeError else Ok false
  end.
(** compare_na.py:114-136: stops at the first difference.  The lists have the
    same length. *)
Fixpoint items_same (approx : bool) (a b : list str) : Res bool :=
  match a, b with
  | x :: a', y :: b' => do s <- item_same approx x y; if s then items_same approx a' b' else Ok false
  | _, _ => Ok true
  end.

(** compare_na.py:86-136, the verdict [same] for one pair of lines. *)
Definition line_same (number_clever approx : bool) (d1 d2 : option str) (a b : str) : Res bool :=
  let a := strip a in
  let b := strip b in
  if has_letter a && str_eqb a b then Ok true
  else
    do items1 <- split_items d1 a;
    do items2 <- split_items d2 b;
    if negb (Nat.eqb (List.length items1) (List.length items2)) then
      match items1, items2 with
      | [x], _ => if strs_eqb (split_ws x) items2 then Ok true
                  else match items2 with
                       | [y] => Ok (strs_eqb (split_ws y) items1)
                       | _ => Ok false
                       end
      | _, [y] => Ok (strs_eqb (split_ws y) items1)
      | _, _ => Ok false
      end
    else if negb number_clever then Ok (strs_eqb items1 items2)
    else items_same approx items1 items2.

(** compare_na.py:73-144 [compareSections]: lines up to the length of the
    shorter list.
    Simplification: the lines of the argument lists are also stripped in place,
    which is not represented. *)
Fixpoint compareSections (l1 l2 : list str) (number_clever approx : bool) (d1 d2 : option str) : Res bool :=
  match l1, l2 with
  | a :: t1, b :: t2 =>
      do s <- line_same number_clever approx d1 d2 a b;
      do r <- compareSections t1 t2 number_clever approx d1 d2;
      Ok (s && r)
  | _, _ => Ok true
  end.

(** compare_na.py:45-46 and 158-163: names of files that are not compared.
    Simplification: the name has no newline. *)
Definition ends_with (p s : str) : bool := starts_with (rev p) (rev s).
Definition excluded (name : str) : bool :=
  contains (lit "CSV") name || contains (lit "svn") name || starts_with [c_dot] name
  || ends_with (lit ".pyc") name || ends_with [126] name.

(** compare_na.py:147-207 [compNAFiles].  [None]: the file is excluded.
    [name] is the last part of the path of the first file; both files exist. *)
Definition compNAFiles (name content1 content2 : str) (header body number_clever approx : bool)
    (d1 d2 : option str) : Res (option bool) :=
  if excluded name then Ok None
  else
    let l1 := readlines content1 in
    let l2 := readlines content2 in
    do l10 <- nth_res l1 0; do i1 <- split_items d1 l10; do f1 <- nth_res i1 0;
    do n1 <- of_opt EValueError (int_of_str f1);
    do l20 <- nth_res l2 0; do i2 <- split_items d2 l20; do f2 <- nth_res i2 0;
    do n2 <- of_opt EValueError (int_of_str f2);
    do same_h <- (if header then compareSections (slice_to l1 n1) (slice_to l2 n2) number_clever approx d1 d2
                  else Ok true);
    do same <- (if body then compareSections (slice_from l1 n1) (slice_from l2 n2) number_clever approx d1 d2
                else Ok same_h);
    Ok (Some same).
End Compare.

(** compare.py:106-116: the (one based) numbers of the lines that [compFiles]
    reports. *)
Fixpoint compFiles_from (i : nat) (l1 l2 : list str) : list nat :=
  match l1, l2 with
  | a :: t1, b :: t2 =>
      (if str_eqb a b then [] else [i]) ++ compFiles_from (S i) t1 t2
  | _, _ => []
  end.
(** compare.py:83-116 [compFiles]: [None] when the name is excluded. *)
Definition compFiles (name content1 content2 : str) : option (list nat) :=
  if excluded name then None else Some (compFiles_from 1 (readlines content1) (readlines content2)).
