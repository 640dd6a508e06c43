(** A concrete number instance: IEEE 754 binary64 numbers as in Python, with
    [float()], [repr] (the shortest digits that read back), ["%.10g"] and
    correctly rounded arithmetic.  Built on the computable definitions of
    Coq.Floats.SpecFloat (no axioms). *)
From Coq Require Import List NArith ZArith Bool Floats.SpecFloat.
From Verif Require Import Py.Str Py.Res Py.Num Py.Arith Model.Dict Model.CommonUtils.
Import ListNotations.
Local Open Scope Z_scope.

Definition b64 := spec_float.
Definition b_prec : Z := 53.
Definition b_emax : Z := 1024.

(** ** [float(s)] *)
(** (-1)^s * m * 10^e, correctly rounded. *)
Definition b_of_dec (s : bool) (m : Z) (e : Z) : b64 :=
  match m with
  | Zpos p =>
      if 0 <=? e then binary_round b_prec b_emax s (p * Z.to_pos (10 ^ e))%positive 0
      else SFdiv b_prec b_emax (S754_finite s p 0) (S754_finite false (Z.to_pos (10 ^ (- e))) 0)
  | _ => S754_zero s
  end.
Definition split_at (p : chr -> bool) (s : str) : str * option str :=
  (fix go s := match s with
               | [] => ([], None)
               | c :: t => if p c then ([], Some t) else let (a, b) := go t in (c :: a, b)
               end) s.
(** Digits that may be missing: the value and the number of digits. *)
Definition digits (s : str) : option (Z * Z) :=
  match s with
  | [] => Some (0, 0)
  | _ => match uint_of_str false s with
         | Some d => Some (Z.of_N (N.of_uint d), Z.of_nat (Decimal.nb_digits d))
         | None => None
         end
  end.
Definition b_parse_abs (s : bool) (t : str) : option b64 :=
  let l := lower t in
  if str_eqb l (lit "inf") || str_eqb l (lit "infinity") then Some (S754_infinity s)
  else if str_eqb l (lit "nan") then Some S754_nan
  else
    let (mant, ex) := split_at (fun c => (c =? 101)%N || (c =? 69)%N) t in
    let (ip, fp) := split_at (N.eqb c_dot) mant in
    match digits ip, digits (match fp with Some f => f | None => [] end),
          (match ex with Some e => int_of_str e | None => Some 0 end) with
    | Some (i, ni), Some (f, nf), Some e =>
        if (ni + nf =? 0) || (match ex with Some e => negb (str_eqb e (strip e)) | None => false end) then None
        else Some (b_of_dec s (i * 10 ^ nf + f) (e - nf))
    | _, _, _ => None
    end.
Definition b_parse (t : str) : option b64 :=
  match strip t with
  | c :: r => if (c =? c_minus)%N then b_parse_abs true r
              else if (c =? c_plus)%N then b_parse_abs false r
              else b_parse_abs false (c :: r)
  | [] => None
  end.

(** ** Decimal digits *)
Definition half_even (a b : Z) : Z :=
  let q := a / b in let r := a mod b in
  if (2 * r <? b) || ((2 * r =? b) && Z.even q) then q else q + 1.
(** n/d >= 10^k. *)
Definition ge_pow (n d k : Z) : bool := if 0 <=? k then d * 10 ^ k <=? n else d <=? n * 10 ^ (- k).
Fixpoint raise (fuel : nat) (n d k : Z) : Z :=
  match fuel with O => k | S f => if ge_pow n d (k + 1) then raise f n d (k + 1) else k end.
(** The exponent k with 10^k <= n/d < 10^(k+1). *)
Definition dec_exp (n d : Z) : Z := raise 6 n d ((Z.log2 n - Z.log2 d) * 30103 / 100000 - 2).
(** n/d rounded to [p] digits: the digits as a number and the exponent of the first. *)
Definition round_to (p : Z) (n d : Z) : Z * Z :=
  let k := dec_exp n d in
  let s := k - p + 1 in
  let q := if 0 <=? s then half_even n (d * 10 ^ s) else half_even (n * 10 ^ (- s)) d in
  if q =? 10 ^ p then (10 ^ (p - 1), k + 1) else (q, k).

Definition drop_zeros (s : str) : str := rstrip_by (N.eqb 48%N) s.
Definition sign_str (s : bool) : str := if s then [c_minus] else [].
Definition exp_str (k : Z) : str :=
  (if k <? 0 then [c_minus] else [c_plus]) ++ (if Z.abs k <? 10 then [48%N] else []) ++ dec_of_Z (Z.abs k).
Definition with_frac (ip fp : str) (zero : bool) : str :=
  match fp with [] => if zero then ip ++ lit ".0" else ip | _ => ip ++ [c_dot] ++ fp end.
(** [q] has [p] digits, the first of exponent [k]; fixed notation for
    -4 <= k < lim. *)
Definition show (q p k lim : Z) (zero : bool) : str :=
  let ds := dec_of_Z q in
  if (-4 <=? k) && (k <? lim) then
    if k <? 0 then with_frac (lit "0") (drop_zeros (repeat 48%N (Z.to_nat (- k - 1)) ++ ds)) zero
    else
      let ip := firstn (Z.to_nat (k + 1)) ds in
      with_frac (ip ++ repeat 48%N (Z.to_nat (k + 1) - length ip)) (drop_zeros (skipn (Z.to_nat (k + 1)) ds)) zero
  else with_frac (firstn 1 ds) (drop_zeros (skipn 1 ds)) false ++ lit "e" ++ exp_str k.
Definition frac_of (m : positive) (e : Z) : Z * Z :=
  if 0 <=? e then (Zpos m * 2 ^ e, 1) else (Zpos m, 2 ^ (- e)).

(** ["%.<p>g" % x] *)
Definition fmt_g (p : Z) (x : b64) : str :=
  match x with
  | S754_nan => lit "nan"
  | S754_infinity s => sign_str s ++ lit "inf"
  | S754_zero s => sign_str s ++ lit "0"
  | S754_finite s m e =>
      let (n, d) := frac_of m e in
      let (q, k) := round_to p n d in
      sign_str s ++ show q p k p false
  end.
(** The next number of [p] digits. *)
Definition next_up (q p k : Z) : Z * Z := if q + 1 =? 10 ^ p then (10 ^ (p - 1), k + 1) else (q + 1, k).
(** [repr(x)]: the fewest digits that read back, the nearest such number; above
    a power of two the floats lie further apart than below, so that the nearest
    number of [p] digits may fail to read back where the next one does. *)
Fixpoint shortest (fuel : nat) (p : Z) (m : positive) (e : Z) : Z * Z * Z :=
  let (n, d) := frac_of m e in
  let (q, k) := round_to p n d in
  match fuel with
  | O => (q, p, k)
  | S f => if SFeqb (b_of_dec false q (k - p + 1)) (S754_finite false m e) then (q, p, k)
           else let (q', k') := next_up q p k in
                if SFeqb (b_of_dec false q' (k' - p + 1)) (S754_finite false m e) then (q', p, k') else shortest f (p + 1) m e
  end.
Definition b_repr (x : b64) : str :=
  match x with
  | S754_nan => lit "nan"
  | S754_infinity s => sign_str s ++ lit "inf"
  | S754_zero s => sign_str s ++ lit "0.0"
  | S754_finite s m e => let '(q, p, k) := shortest 16 1 m e in sign_str s ++ show q p k 16 true
  end.
(** [int(x)] *)
Definition b_trunc (x : b64) : option Z :=
  match x with
  | S754_zero _ => Some 0
  | S754_finite s m e => let (n, d) := frac_of m e in Some (if s then - (n / d) else n / d)
  | _ => None
  end.
Definition b_of_Z (z : Z) : b64 := binary_normalize b_prec b_emax z 0 false.

Global Instance BOps : NumOps b64 := {|
  num_str := b_repr; num_parse := b_parse; num_trunc := b_trunc; num_of_Z := b_of_Z
|}.
Global Instance BArith : ArithOps b64 := {|
  num_plus := SFadd b_prec b_emax; num_minus := SFsub b_prec b_emax; num_times := SFmul b_prec b_emax;
  num_same := SFeqb; num_isnan := fun x => match x with S754_nan => true | _ => false end
|}.
(** Four spaces, ["%.10g"], no annotation: the defaults of nappy.ini. *)
Definition opts_b64 : opts b64 := mkOpts (lit "    ") (fmt_g 10) false (fun _ => None).
(** A number from its notation. *)
Definition bf (s : pylit) : b64 := match b_parse (lit s) with Some x => x | None => S754_nan end.
Arguments bf _%pylit.

Example repr_checks :
  map b_repr [bf "0.1"; bf "1e16"; bf "123456789012345680"; bf "-2.5e-7"; bf "100"; bf "5e-324"; bf "1.7976931348623157e308"; bf "0.0001"; bf "1_0.5"]
  = map lit ["0.1"; "1e+16"; "1.2345678901234568e+17"; "-2.5e-07"; "100.0"; "5e-324"; "1.7976931348623157e+308"; "0.0001"; "10.5"]%pylit.
Proof. vm_compute. reflexivity. Qed.
(** 2^-44: 5.684341886080801e-14 is nearer, but reads back as the float below. *)
Example repr_power_of_two : b_repr (S754_finite false 4503599627370496 (-96)) = lit "5.684341886080802e-14".
Proof. vm_compute. reflexivity. Qed.
Example g_checks :
  map (fmt_g 10) [bf "0.1"; bf "1e16"; bf "12345678901.5"; bf "-2.5e-7"; bf "100"; bf "0.00012345"; bf "9999999999.9"; bf "0.30000000000000004"; bf "1e-400"; bf "inf"]
  = map lit ["0.1"; "1e+16"; "1.23456789e+10"; "-2.5e-07"; "100"; "0.00012345"; "1e+10"; "0.3"; "0"; "inf"]%pylit.
Proof. vm_compute. reflexivity. Qed.
Example plus_check : b_repr (num_plus (bf "0.1") (bf "0.2")) = lit "0.30000000000000004".
Proof. vm_compute. reflexivity. Qed.
