(** Vocabulary for properties C111 and C112: the numbers of the binary64 format
    and their exact values, and a number instance that contains exactly the
    numbers of the format. *)
From Coq Require Import List NArith ZArith QArith Qabs Bool Floats.SpecFloat.
From Verif Require Import Py.Str Py.Num Py.Arith Model.CommonUtils Spec.Binary64.
Import ListNotations.

(** A number of the format: 53 bits, exponents -1074 to 971 (or a zero, an
    infinity, nan). *)
Definition is_float (x : b64) : Prop := valid_binary b_prec b_emax x = true.
(** Its value. *)
Definition value (m : positive) (e : Z) : Q := inject_Z (Zpos m) * 2 ^ e.
(** The decimal number q * 10^t has [p] digits and is the one of its exponent
    nearest to [v] (at most half a unit of its last digit away). *)
Definition rounded (p q t : Z) (v : Q) : Prop :=
  (10 ^ (p - 1) <= q < 10 ^ p)%Z /\ 2 * Qabs (inject_Z q * 10 ^ t - v) <= 10 ^ t.

Definition f64 : Type := {x : b64 | is_float x}.
Definition f_val (x : f64) : b64 := proj1_sig x.
(** A float made a member of the type; not used for other arguments. *)
Definition f_of (x : b64) : f64 :=
  match Bool.bool_dec (valid_binary b_prec b_emax x) true with
  | left p => exist _ x p
  | right _ => exist _ S754_nan eq_refl
  end.
Global Instance FOps : NumOps f64 := {|
  num_str x := b_repr (f_val x); num_parse s := option_map f_of (b_parse s);
  num_trunc x := b_trunc (f_val x); num_of_Z z := f_of (b_of_Z z)
|}.
Definition lift2 (f : b64 -> b64 -> b64) (x y : f64) : f64 := f_of (f (f_val x) (f_val y)).
Global Instance FArith : ArithOps f64 := {|
  num_plus := lift2 num_plus; num_minus := lift2 num_minus; num_times := lift2 num_times;
  num_same x y := num_same (f_val x) (f_val y); num_isnan x := num_isnan (f_val x)
|}.
(** The defaults of nappy.ini. *)
Definition opts_f64 : opts f64 := mkOpts (lit "    ") (fun x => fmt_g 10 (f_val x)) false (fun _ => None).
Definition ff (s : pylit) : f64 := f_of (bf s).
Arguments ff _%pylit.

(** What reading makes of the text of ["%.10g"]. *)
Definition reread (x : b64) : b64 := match b_parse (fmt_g 10 x) with Some y => y | None => S754_nan end.
Definition f_reread (x : f64) : f64 := f_of (reread (f_val x)).
Definition infinite (x : b64) : bool := match x with S754_infinity _ => true | _ => false end.

(** The floats whose ten digits are not read as an infinity (and the
    infinities): all but those next to the largest float. *)
Definition prints (x : b64) : bool := valid_binary b_prec b_emax x && (infinite x || negb (infinite (reread x))).
Definition p64 : Type := {x : b64 | prints x = true}.
Definition p_val (x : p64) : b64 := proj1_sig x.
Definition p_of (x : b64) : p64 :=
  match Bool.bool_dec (prints x) true with
  | left p => exist _ x p
  | right _ => exist _ S754_nan eq_refl
  end.
Definition POps : NumOps p64 := {|
  num_str x := b_repr (p_val x); num_parse s := option_map p_of (b_parse s);
  num_trunc x := b_trunc (p_val x); num_of_Z z := p_of (b_of_Z z)
|}.
Definition opts_p64 : opts p64 := mkOpts (lit "    ") (fun x => fmt_g 10 (p_val x)) false (fun _ => None).
Definition p_reread (x : p64) : p64 := p_of (reread (p_val x)).
