(** utils/common_utils.py:258-272 [get_rank_zero_array_value] and where it is
    used: nc_interface/nc_to_na.py:93-97 and xarray_to_na.py:143-151.

    Simplifications: zeros at the end of a text, which numpy does not keep, do
    not occur; numbers of other types than int and float count as one of them. *)
From Coq Require Import List NArith ZArith Bool.
From Verif Require Import Py.Str Py.Res Py.Num Model.Dict Model.Xarray Model.Collector.
Import ListNotations.
Open Scope N_scope.

(** [bytes.decode()]: UTF-8.  Nothing for bytes that are none (UnicodeDecodeError,
    a ValueError). *)
Definition next (b : N) : bool := (128 <=? b) && (b <? 192).
Definition cons_opt (c : N) (r : option str) : option str := option_map (cons c) r.
Fixpoint utf8_decode (l : list N) : option str :=
  match l with
  | [] => Some []
  | b0 :: t0 =>
      if b0 <? 128 then cons_opt b0 (utf8_decode t0)
      else if b0 <? 194 then None
      else
        match t0 with
        | [] => None
        | b1 :: t1 =>
            if negb (next b1) then None
            else if b0 <? 224 then cons_opt ((b0 - 192) * 64 + (b1 - 128)) (utf8_decode t1)
            else
              match t1 with
              | [] => None
              | b2 :: t2 =>
                  if negb (next b2) then None
                  else if b0 <? 240 then
                    let c := (b0 - 224) * 4096 + (b1 - 128) * 64 + (b2 - 128) in
                    if (c <? 2048) || ((55296 <=? c) && (c <? 57344)) then None else cons_opt c (utf8_decode t2)
                  else
                    match t2 with
                    | [] => None
                    | b3 :: t3 =>
                        if negb (next b3) then None
                        else if b0 <? 245 then
                          let c := (b0 - 240) * 262144 + (b1 - 128) * 4096 + (b2 - 128) * 64 + (b3 - 128) in
                          if (c <? 65536) || (1114112 <=? c) then None else cons_opt c (utf8_decode t3)
                        else None
                    end
              end
        end
  end.

Section Scalar.
Context {num date : Type} `{NumOps num}.

(** An array without dimensions: of type str, bytes, int, float, or an object
    (a text of a variable length string, or a date). *)
Inductive zero_array :=
| ZStr (s : str) | ZBytes (b : list N) | ZInt (z : Z) | ZFloat (x : num) | ZText (s : str) | ZDate (d : date).
(** common_utils.py:258-272 *)
Definition get_rank_zero_array_value (a : zero_array) : Res (pyv num) :=
  match a with
  | ZStr s => Ok (PStr s)
  | ZBytes b => match utf8_decode b with Some s => Ok (PStr s) | None => Err EValueError end
  | ZInt z => Ok (PNum (num_of_Z z))
  | ZFloat x => Ok (PNum x)
  | ZText s => match num_parse s with Some x => Ok (PNum x) | None => Err EValueError end
  | ZDate _ => Err ETypeError
  end.
(** [np.array(value)] of such a value. *)
Definition np_array (v : pyv num) : Res zero_array :=
  match v with PStr s => Ok (ZStr s) | PNum x => Ok (ZFloat x) | _ => Err EUnmodelled end.

(** nc_to_na.py:93-97: the variable that is made of one without dimensions. *)
Definition read_single (name : str) (attrs : list (str * gval num)) (a : zero_array) : Res (xvar num) :=
  (do v <- get_rank_zero_array_value a;
   Ok (mkVar (mkNamed name attrs []) [] v None None))%res.
(** xarray_to_na.py:143-151: from the variable, the array again and its value as
    an attribute. *)
Definition convert_single (v : xvar num) : Res (xvar num) :=
  (do name <- getBestName (v_info v);
   do a <- np_array (v_data v);
   do value <- get_rank_zero_array_value a;
   Ok (mkVar (mkNamed name (set_attr (lit "value") (mkG true value) (n_attrs (v_info v))) []) [] (v_data v) None None))%res.
End Scalar.
Arguments zero_array : clear implicits.
