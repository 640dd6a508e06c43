(** The life of an object of nappy/nc_interface/na_to_xarray.py: what is left in
    it when [convert] stops with an exception, and what a further [convert] then
    does.  A single call on a new object is [toXarray] of Model.ToXarray.

    Simplifications: those of Model.ToXarray; the local time is the same for all
    calls; what [readData] of the k-th call left in the NAFile object is an
    argument of the k-th call. *)
From Coq Require Import List NArith ZArith Bool.
From Verif Require Import Py.Str Py.Res Py.Num Py.Arith Model.Dict Model.CommonUtils Model.Utils Model.NACore Model.NCWrite Model.Normalize
  Model.Xarray Model.Collector Model.ToXarray.
Import ListNotations.

(** A loop that appends to a list of the object: what the list holds at the end,
    and the exception that ended the loop. *)
Fixpoint collect {A B} (f : A -> Res B) (l : list A) : list B * option exn :=
  match l with
  | [] => ([], None)
  | x :: t =>
      match f x with
      | Ok y => let (ys, e) := collect f t in (y :: ys, e)
      | Err e => ([], Some e)
      end
  end.

Section Life.
Context {num : Type} `{NumOps num} `{ArithOps num}.
Local Notation pyv := (pyv num).
Local Notation na := (na num).
Local Notation xvar := (xvar num).
Local Notation axis := (axis num).
Local Notation gval := (gval num).
Local Notation settings := (settings (num := num)).
Open Scope res_scope.

(** The attributes of the object that [convert] changes; [None] is an attribute
    that does not exist yet.  [time_units] is not among them: it is read and
    written in [_convertXarrayAxes] only, which runs at most once. *)
Record life := mkLife {
  l_globals : list (str * gval); l_axes : option (list axis);
  l_vars : option (list xvar); l_aux : option (list xvar); l_done : bool }.
(** na_to_xarray.py:68-96 [__init__]. *)
Definition create (s : settings) (d : na) : Res life :=
  do ffi <- as_int (attr d kFFI);
  if existsb (Z.eqb ffi) [2110; 2160; 2310]%Z then Err ETypeError
  else Ok (mkLife (t_globals s) None None None false).

(** na_to_xarray.py:367-376 [_convertXarrayAxes]: [xr_axes] is made first, then
    filled one axis at a time. *)
Fixpoint fill_axes (callback : option (str -> str * option str)) (warning : bool) (d : na) (is : list nat) (k : asked) : list axis * option exn :=
  match is with
  | [] => ([], None)
  | i :: t =>
      match convertAxis callback warning d i k with
      | Ok (a, k') => let (l, e) := fill_axes callback warning d t k' in (a :: l, e)
      | Err e => ([], Some e)
      end
  end.
Definition make_axes (s : settings) (d : na) : list axis * option exn :=
  match as_int (attr d kNIV) with
  | Err e => ([], Some e)
  | Ok niv =>
      match (if (0 <? niv)%Z then normalized d else Ok d) with
      | Err e => ([], Some e)
      | Ok d => fill_axes (t_callback s) (t_warning s) d (range niv) (mkAsked (t_units s) (t_answers s))
      end
  end.
(** na_to_xarray.py:90: the names of [rename_variables] in lower case. *)
Definition renames (s : settings) : list (str * str) := dict_of_list (map (fun p => (lower (fst p), snd p)) (t_rename s)).
(** na_to_xarray.py:217-244 [_convertXarrayVariables]: a name or a number is looked
    up when its turn comes. *)
Definition make_vars (s : settings) (d : na) (axes : list axis) : list xvar * option exn :=
  let one := convertMain (t_callback s) (renames s) d axes in
  match t_vars s with
  | SAll => match as_int (attr d kNV) with Ok nv => collect one (range nv) | Err e => ([], Some e) end
  | SNums [] => ([], Some EIndexError)
  | SNums l => collect one l
  | SStrs [] => ([], Some EIndexError)
  | SStrs (x :: t) =>
      if match x with c :: _ => is_digit c | [] => false end then
        collect (fun y => do z <- of_opt EValueError (int_of_str y); if (z <? 0)%Z then Err EUnmodelled else one (Z.to_nat z)) (x :: t)
      else
        collect (fun y => do names <- as_list (attr d kVNAME); do i <- of_opt (ENappy E_Other) (position y names 0); one i) (x :: t)
  end.
(** na_to_xarray.py:294-319 [_convertXarrayAuxVariables]: an unknown name is passed
    over. *)
Definition make_aux (s : settings) (d : na) (axes : list axis) : list xvar * option exn :=
  let one := convertAux (t_callback s) (renames s) d axes in
  match t_aux s with
  | SAll => match as_int (attr d kNAUXV) with Ok nv => collect one (range nv) | Err e => ([], Some e) end
  | SNums [] => ([], Some EIndexError)
  | SNums l => collect one l
  | SStrs [] => ([], Some EIndexError)
  | SStrs l =>
      match as_list (attr d kANAME) with
      | Ok names => collect one (flat_map (fun y => match position y names 0 with Some i => [i] | None => [] end) l)
      | Err e => ([], Some e)
      end
  end.
(** The attribute of the object if it exists, what the call leaves in it otherwise. *)
Definition made {A} (o : option (list A)) (m : list A * option exn) : list A * option exn :=
  match o with Some l => (l, None) | None => m end.
(** na_to_xarray.py:120-126: the auxiliary variables, if there are any. *)
Definition aux_step (s : settings) (d : na) (axes : list axis) (o : option (list xvar)) : list xvar * option exn :=
  match attr d kNAUXV with
  | PInt n => if (0 <? n)%Z then made o (make_aux s d axes) else ([], None)
  | _ => ([], None)
  end.

(** na_to_xarray.py:98-130 [convert].  [read] is the result of [readData]. *)
Definition convert (s : settings) (read : Res na) (o : life) : life * Res objects :=
  if l_done o then
    (o, match l_vars o, l_aux o with Some v, Some a => Ok (mkObj v a (l_globals o)) | _, _ => Err EAttributeError end)
  else
    match read with
    | Err e => (o, Err e)
    | Ok d =>
        match mapNACommentsToGlobalAttributes (t_now s) (t_version s) d (l_globals o) with
        | Err e => (o, Err e)
        | Ok g =>
            match made (l_axes o) (make_axes s d) with
            | (axes, Some e) => (mkLife g (Some axes) (l_vars o) (l_aux o) false, Err e)
            | (axes, None) =>
                match made (l_vars o) (make_vars s d axes) with
                | (vars, Some e) => (mkLife g (Some axes) (Some vars) (l_aux o) false, Err e)
                | (vars, None) =>
                    match aux_step s d axes (l_aux o) with
                    | (aux, Some e) => (mkLife g (Some axes) (Some vars) (Some aux) false, Err e)
                    | (aux, None) => (mkLife g (Some axes) (Some vars) (Some aux) true, Ok (mkObj vars aux g))
                    end
                end
            end
        end
    end.
(** Several calls one after the other, and the results of all of them. *)
Fixpoint calls (s : settings) (reads : list (Res na)) (o : life) : list (Res objects) :=
  match reads with
  | [] => []
  | r :: t => let (o', x) := convert s r o in x :: calls s t o'
  end.
(** na_to_nc.py:88-112 [writeNCFile]: the variables and the global attributes of
    the file that a call writes. *)
Definition writeNCFile (s : settings) (read : Res na) (o : life) : life * Res (list (str * xvar) * list (str * gval)) :=
  let (o', x) := convert s read o in
  (o', do x <- x; Ok (file_variables x, file_attributes x)).
End Life.
