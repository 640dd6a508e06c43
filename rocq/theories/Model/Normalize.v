(** Expansion of abbreviated independent variables: na_file_2010.py:152-167 and
    na_file_1020.py:72-84 [_normalizeIndVars].

    Simplification: the object after an exception is not modelled (the code
    changes X in place). *)
From Coq Require Import List ZArith Bool.
From Verif Require Import Py.Str Py.Res Py.Num Py.Arith Model.Dict.
Import ListNotations.

Section Normalize.
Context {num : Type} `{NumOps num} `{ArithOps num}.
Local Notation pyv := (pyv num).
Local Notation na := (na num).

(** na_file_2010.py:162-166, the [while] loop; [x] is [self.X[i+1]].  The list
    grows by one in every step, so [fuel] (the number of missing values) is
    enough. *)
Fixpoint extend (fuel : nat) (x : list pyv) (count : nat) (nx : Z) (dx : Res pyv) : Res (list pyv) :=
  (if (Z.of_nat (length x) <? nx)%Z then
     match fuel with
     | O => Err EHang
     | S fuel' =>
         do v <- nth_res x count;
         do d <- dx;
         do nextx <- pv_add v d;
         extend fuel' (x ++ [nextx]) (S count) nx dx
     end
   else Ok x)%res.

(** na_file_2010.py:157-166, one axis. *)
Definition normalize_axis (i : nat) (d : na) : Res na :=
  (do nxdef <- index (attr d kNXDEF) i;
   do nx <- index (attr d kNX) i;
   do same <- int_eq nxdef nx;
   if same then Ok d
   else
     do n <- as_int nx;
     do X <- modify_in (attr d kX) (S i) (fun x =>
       match x with
       | PList l =>
           do l' <- extend (Z.to_nat n) (firstn 1 l) 0 n (index (attr d kDX) (S i));
           Ok (PList l')
       | _ => Err ETypeError
       end);
     Ok (upd d kX X))%res.

(** na_file_2010.py:152-167 (also FFI 3010 and 4010). *)
Definition normalizeIndVars_2010 (d : na) : Res na :=
  (do niv <- as_int (attr d kNIV);
   forR (range (niv - 1)) normalize_axis d)%res.

(** na_file_1020.py:72-84, when [_normalized_X] is false. *)
Definition normalizeIndVars_1020 (d : na) : Res na :=
  (do x0 <- index (attr d kX) 0;
   do l <- as_list x0;
   do nvpm <- (match l with [] => Ok 0%Z | _ => as_int (attr d kNVPM) end);
   do newX <- mapR (fun x => mapR (fun i => do s <- pv_times (Z.of_nat i) (attr d kDX); pv_add x s) (range nvpm)) l;
   do X <- modify_in (attr d kX) 0 (fun _ => Ok (PList (concat newX)));
   Ok (upd d kX X))%res.
End Normalize.
