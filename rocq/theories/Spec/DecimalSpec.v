(** Vocabulary for property C120: which decimal number a numeral in a file is. *)
From Coq Require Import List NArith ZArith QArith Qabs Bool.
From Verif Require Import Py.Str Py.Num Spec.Binary64.
Import ListNotations.

(** The number that a row of digits is. *)
Definition digit_value (ds : str) : Z := fold_left (fun a c => (a * 10 + (Z.of_N c - 48))%Z) ds 0%Z.
(** A numeral: an optional minus, digits, an optional fraction and an optional
    exponent of two or more digits with a sign.  The number it is. *)
Inductive denotes : str -> Q -> Prop :=
| Denotes (neg : bool) (ip : str) (fp : option str) (k : option Z) v :
    let ds := ip ++ match fp with Some f => f | None => [] end in
    ip <> [] -> forallb is_digit ds = true ->
    v == (if neg then - (1) else 1) * inject_Z (digit_value ds) *
         10 ^ (match k with Some k => k | None => 0 end - Z.of_nat (length ds - length ip)) ->
    denotes (sign_str neg ++ ip ++ match fp with Some f => c_dot :: f | None => [] end ++
             match k with Some k => lit "e" ++ exp_str k | None => [] end) v.
(** At most [p] digits are needed to write [v]. *)
Definition few_digits (p : Z) (v : Q) : Prop := exists q t, (Z.abs q < 10 ^ p)%Z /\ v == inject_Z q * 10 ^ t.
