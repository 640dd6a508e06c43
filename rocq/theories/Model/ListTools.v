(** nappy/utils/list_manipulator.py:22-48 [arrayToList], [listOfListsCreator]
    and nappy/utils/ffi_translator.py:23-43 [translate2010To2110]. *)
From Coq Require Import List NArith ZArith Bool.
From Verif Require Import Py.Str Py.Res Py.Num Model.Dict.
Import ListNotations.

Section ListTools.
Context {num : Type}.

(** Objects: numbers, numpy arrays with their shape, and lists.  A numpy array
    of no dimension (also a numpy number) has the shape []. *)
Inductive obj := ONum (x : num) | OArr (shape : list nat) (items : list obj) | OList (items : list obj).
(** [x.shape] *)
Definition shape_of (x : obj) : Res (list nat) :=
  match x with ONum _ => Ok [] | OArr s _ => Ok s | OList _ => Err EAttributeError end.
(** [x[i]] *)
Definition item_of (x : obj) (i : nat) : Res obj :=
  match x with ONum _ => Err EIndexError | OArr _ l => nth_res l i | OList l => nth_res l i end.
(** [x.append(y)] *)
Definition append_to (x y : obj) : Res obj :=
  match x with OList l => Ok (OList (l ++ [y])) | _ => Err EAttributeError end.
Fixpoint forN {A} (l : list nat) (f : nat -> A -> Res A) (a : A) : Res A :=
  match l with [] => Ok a | i :: t => bindR (f i a) (forN t f) end.

(** list_manipulator.py:22-34.  The recursive call has its arguments exchanged;
    what it does to [array[i]] is lost or raises, since arrays have no [append].
    [fuel] bounds the depth of the recursion. *)
Fixpoint arrayToList (fuel : nat) (array inlist : obj) : Res obj :=
  match fuel with
  | O => Err EUnmodelled
  | S fuel =>
      (do dimlist <- shape_of array;
       match dimlist with
       | [] => Err EIndexError
       | [n] => forN (seq 0 n) (fun i inlist => do y <- item_of array i; append_to inlist y) inlist
       | n :: _ :: _ => forN (seq 0 n) (fun i inlist =>
           do x <- item_of inlist i; do y <- item_of array i; do _ <- arrayToList fuel x y; Ok inlist) inlist
       end)%res
  end.

(** list_manipulator.py:37-48: the name [array] does not exist. *)
Definition listOfListsCreator (inlist : obj) (dimlist : list nat) : Res obj :=
  match dimlist with
  | S _ :: _ :: _ => (do l <- append_to inlist (OList []); do _ <- item_of l 0; Err ENameError)%res
  | _ => Ok inlist
  end.

(** ffi_translator.py:23-43 for a dictionary and for an object of a class for
    NASA Ames files.  Objects have the attribute XNAME, but not XNAMES. *)
Inductive source := Dict (d : na num) | Object (d : na num).
Definition translate2010To2110 (s : source) : Res source :=
  match s with
  | Dict _ => Err EAttributeError
  | Object n =>
      (do nx <- (match attr n kNX with PList l => nth_res l 0 | PStr t => Err EUnmodelled | _ => Err ETypeError end);
       do nauxv <- (match attr n kNAUXV with PInt z => Ok (z + 1)%Z | _ => Err ETypeError end);
       Err EAttributeError)%res
  end.
End ListTools.
Arguments obj : clear implicits.
