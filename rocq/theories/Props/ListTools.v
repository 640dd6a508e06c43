(** Properties C116 and C117: conversion of arrays to lists
    (nappy/utils/list_manipulator.py) and the translation of FFI 2010 to 2110
    (nappy/utils/ffi_translator.py). *)
From Coq Require Import List NArith ZArith Bool Lia.
From Verif Require Import Py.Str Py.Res Py.Num Model.Dict Model.ListTools Spec.Records Spec.WholeNum Spec.RecordSamples Proofs.SampleOk.
Import ListNotations.

(** * C116 *)
Section C116.
Context {num : Type}.
Local Notation obj := (obj num).

(** [a] is an array of the shape [s]; its elements are numbers or arrays of the
    remaining shape. *)
Inductive is_array : list nat -> obj -> Prop :=
| IsNum x : is_array [] (ONum x)
| IsArr n s l : length l = n -> Forall (is_array s) l -> is_array (n :: s) (OArr (n :: s) l).
(** The same numbers as lists of lists. *)
Inductive as_lists : obj -> obj -> Prop :=
| AsNum x : as_lists (ONum x) (ONum x)
| AsList s l l' : Forall2 as_lists l l' -> as_lists (OArr s l) (OList l').
(** Nested empty lists for the dimensions [dims]: one list for each element of
    all dimensions but the last. *)
Inductive empty_lists : list nat -> obj -> Prop :=
| EmptyLast n : empty_lists [n] (OList [])
| EmptyMore n dims l : length l = n -> dims <> [] -> Forall (empty_lists dims) l -> empty_lists (n :: dims) (OList l).

Lemma append_all (l : list obj) : forall s pre (inl : list obj) suf, s = length pre ->
  forN (seq s (length l)) (fun i inlist => (do y <- item_of (OArr [length (pre ++ l ++ suf)] (pre ++ l ++ suf)) i; append_to inlist y)%res) (OList inl)
  = Ok (OList (inl ++ l)).
Proof.
  induction l as [|x l IH]; intros s pre inl suf ->; cbn [length seq forN]; [now rewrite app_nil_r|].
  cbn [item_of]. unfold nth_res. rewrite nth_error_app2 by lia. rewrite Nat.sub_diag. cbn [nth_error app of_opt bindR append_to].
  specialize (IH (S (length pre)) (pre ++ [x]) (inl ++ [x]) suf). rewrite app_length in IH. cbn [length] in IH.
  rewrite <- !app_assoc in IH. cbn [app] in IH. apply IH. lia.
Qed.

(** For arrays with one dimension the elements are appended; for no other array
    with a first element. *)
Theorem C116_array_to_list_partial : forall fuel s (a : obj), is_array s a ->
  match s with
  | [] => arrayToList (S fuel) a (OList []) = Err EIndexError
  | [n] => exists l, a = OArr [n] l /\ arrayToList (S fuel) a (OList []) = Ok (OList l) /\ as_lists a (OList l)
  | O :: _ => arrayToList (S fuel) a (OList []) = Ok (OList []) /\ as_lists a (OList [])
  | S _ :: _ => arrayToList (S fuel) a (OList []) = Err EIndexError
  end.
Proof.
  intros fuel s a K. destruct K as [x | n s l Hl F]; [reflexivity|]. destruct s as [|m s].
  - assert (R : arrayToList (S fuel) (OArr [n] l) (OList []) = Ok (OList l)).
    { cbn [arrayToList shape_of bindR]. subst n. pose proof (append_all l 0 [] [] [] eq_refl) as Q. cbn [app] in Q. rewrite app_nil_r in Q. exact Q. }
    assert (A : as_lists (OArr [n] l) (OList l)).
    { constructor. clear - F. induction F as [|x l K F IH]; constructor; [|exact IH]. inversion K; subst. constructor. }
    destruct n; exists l; (split; [reflexivity|]); auto.
  - destruct n as [|n].
    + split; [reflexivity|]. destruct l; [|discriminate]. constructor. constructor.
    + destruct l as [|y l]; [discriminate|]. reflexivity.
Qed.
(** With lists prepared for the elements, arrays of two or more dimensions
    raise as well: the lists are taken for arrays. *)
Theorem C116_prepared_partial : forall fuel n m s l (p : list obj), is_array (S n :: m :: s) (OArr (S n :: m :: s) l) ->
  length p = S n -> (forall x, In x p -> exists q, x = OList q) ->
  arrayToList (S (S fuel)) (OArr (S n :: m :: s) l) (OList p) = Err EAttributeError.
Proof.
  intros fuel n m s l p K Lp P. inversion K as [|? ? ? Hl F]; subst. destruct l as [|y l]; [discriminate|]. destruct p as [|x p]; [discriminate|].
  destruct (P x (or_introl eq_refl)) as [q ->]. reflexivity.
Qed.
(** Dimensions for which lists of lists are created. *)
Theorem C116_lists_partial : forall dims,
  match dims with
  | S _ :: _ :: _ => listOfListsCreator (OList (num:=num) []) dims = Err ENameError
  | [] => listOfListsCreator (OList (num:=num) []) dims = Ok (OList [])
  | _ => listOfListsCreator (OList (num:=num) []) dims = Ok (OList []) /\ empty_lists dims (OList [])
  end.
Proof.
  intros [|[|n] [|m dims]]; try reflexivity; (split; [reflexivity|]); constructor; try reflexivity; try discriminate. constructor.
Qed.
End C116.
Definition two_by_two : obj Z := OArr [2; 2]%nat [OArr [2%nat] [ONum 1%Z; ONum 2%Z]; OArr [2%nat] [ONum 3%Z; ONum 4%Z]].
Lemma two_by_two_array : is_array [2; 2]%nat two_by_two.
Proof. repeat constructor. Qed.
(** A matrix is not converted, and lists for it are not made. *)
Theorem C116_refuted : exists (a : obj Z) r e p e',
  is_array [2; 2]%nat a /\ as_lists a r /\ (forall fuel, arrayToList (S fuel) a (OList []) = Err e) /\
  empty_lists (num:=Z) [2; 2]%nat p /\ listOfListsCreator (OList (num:=Z) []) [2; 2]%nat = Err e'.
Proof.
  exists two_by_two, (OList [OList [ONum 1%Z; ONum 2%Z]; OList [ONum 3%Z; ONum 4%Z]]), EIndexError, (OList [OList []; OList []]), ENameError.
  split; [apply two_by_two_array|]. split; [repeat constructor|]. split; [reflexivity|]. split; [|reflexivity].
  constructor; [reflexivity|discriminate|]. repeat constructor.
Qed.
Example C116_example : is_array [3%nat] (OArr [3%nat] [ONum 5%Z; ONum 7%Z; ONum 9%Z]) /\
  arrayToList 1 (OArr [3%nat] [ONum 5%Z; ONum 7%Z; ONum 9%Z]) (OList []) = Ok (OList [ONum 5%Z; ONum 7%Z; ONum 9%Z]) /\
  arrayToList 2 two_by_two (OList [OList []; OList []]) = Err EAttributeError.
Proof. repeat split. repeat constructor. Qed.

(** * C117 *)
(** No dictionary and no object is translated; dictionaries are refused because
    items are taken for attributes, objects of FFI 2010 because of the name XNAMES. *)
Theorem C117_never_partial : forall num (s : source (num:=num)),
  (exists e, translate2010To2110 s = Err e) /\
  (forall d, s = Dict d -> translate2010To2110 s = Err EAttributeError) /\
  (forall d nx l n, s = Object d -> attr d kNX = PList (nx :: l) -> attr d kNAUXV = PInt n -> translate2010To2110 s = Err EAttributeError).
Proof.
  intros num s. split; [|split].
  - destruct s as [d|d]; [eexists; reflexivity|]. cbn [translate2010To2110].
    destruct (match attr d kNX with PList l => nth_res l 0 | PStr _ => Err EUnmodelled | _ => Err ETypeError end); cbn [bindR]; [|eauto].
    destruct (match attr d kNAUXV with PInt z => Ok (z + 1)%Z | _ => Err ETypeError end); cbn [bindR]; eauto.
  - intros d ->. reflexivity.
  - intros d nx l n -> E1 E2. cbn [translate2010To2110]. rewrite E1, E2. reflexivity.
Qed.
Theorem C117_refuted : exists (r : r2010 whole) (d : na whole), ok2010 r /\ length (r4_nx r) = 1%nat /\ has d (items2010 r) /\
  translate2010To2110 (Dict d) = Err EAttributeError /\ translate2010To2110 (Object d) = Err EAttributeError.
Proof.
  exists s2010, (dict_of (items2010 s2010)). split; [apply s2010_ok|]. split; [reflexivity|]. split; [apply dict_of_has; nodup|]. split; reflexivity.
Qed.

Print Assumptions C116_array_to_list_partial.
Print Assumptions C116_prepared_partial.
Print Assumptions C116_lists_partial.
Print Assumptions C116_refuted.
Print Assumptions C117_never_partial.
Print Assumptions C117_refuted.
