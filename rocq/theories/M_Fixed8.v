(** * M_Fixed8: neocore/Fixed8.py

    A Fixed8 is its integer attribute value (Fixed8.py:13-21); Fixed8 objects are
    never mutated by the class itself (M_Fixed8Heap states that with objects). *)
From Verif Require Import M_Py M_Float.

(** Fixed8.py:16 D *)
Definition D : Z := 100000000.
(** float(D), exact *)
Definition F_D : pyfloat := SpecFloat.S754_finite false 6710886400000000 (-26).

(** Fixed8.py:26-28 FD, 35-49 Satoshi, One, NegativeSatoshi, Zero *)
Definition FD : Z := D.
Definition Satoshi : Z := 1.
Definition One : Z := D.
Definition NegativeSatoshi : Z := -1.
Definition Zero : Z := 0.

(** Fixed8.py:72-118, __add__ .. __neg__ *)
Definition f8_add (a b : Z) : res Z := Ok (a + b).
Definition f8_iadd (a b : Z) : res Z := f8_add a b.
Definition f8_sub (a b : Z) : res Z := Ok (a - b).
Definition f8_isub (a b : Z) : res Z := f8_sub a b.
Definition f8_mul (a b : Z) : res Z := Ok (a * b).
Definition f8_imul (a b : Z) : res Z := f8_mul a b.
(** Fixed8.py:90-91 int(self.value / other.value): through a float *)
Definition f8_truediv (a b : Z) : res Z := do q <- int_truediv a b; py_int q.
Definition f8_itruediv (a b : Z) : res Z := f8_truediv a b.
Definition f8_floordiv (a b : Z) : res Z := if b =? 0 then Raise ZeroDivisionError else Ok (a / b).
Definition f8_mod (a b : Z) : res Z := if b =? 0 then Raise ZeroDivisionError else Ok (a mod b).
Definition f8_imod (a b : Z) : res Z := f8_mod a b.
(** Fixed8.py:105-106 __pow__ with modulo=None, exponent >= 0 (a negative exponent
    makes value a float, not modelled) *)
Definition f8_pow (a b : Z) : res Z := Ok (a ^ b).
(** Fixed8.py:105-106 pow(x, y, modulo) with an int modulo, exponent >= 0 (Python 3.8+
    also inverts for a negative exponent, not modelled) *)
Definition f8_powmod (a b m : Z) : res Z := if m =? 0 then Raise ValueError else Ok (a ^ b mod m).
Definition f8_neg (a : Z) : res Z := Ok (-1 * a).
(** Fixed8.py:111-124 comparisons *)
Definition f8_eq (a b : Z) : bool := a =? b.
Definition f8_lt (a b : Z) : bool := a <? b.
Definition f8_gt (a b : Z) : bool := a >? b.
Definition f8_ge (a b : Z) : bool := a >=? b.
Definition f8_le (a b : Z) : bool := a <=? b.

(** Fixed8.py:126-133 Ceil, Floor, ToInt *)
Definition Ceil (v : Z) : res Z := do q <- int_truediv v D; do c <- py_ceil q; Ok (c * D).
Definition Floor (v : Z) : res Z := do q <- int_truediv v D; do c <- py_floor q; Ok (c * D).
Definition ToInt (v : Z) : res Z := do q <- int_truediv v D; py_int q.
(** Fixed8.py:147-148 Size *)
Definition f8_Size (v : Z) : Z := 8.

(** Fixed8.py:30-33 FromDecimal: int(number * D), by the type of number. *)
Definition FromDecimal_int (n : Z) : res Z := Ok (n * D).
Definition FromDecimal_float (f : pyfloat) : res Z := py_int (fmul f F_D).

(** A finite decimal.Decimal (-1)^s c 10^e, c >= 0. *)
Record decimal := mkDec { d_sign : bool; d_coef : Z; d_exp : Z }.
(** number of decimal digits of c, at least 1 *)
Fixpoint dec_digits_aux (fuel : nat) (c : Z) : Z :=
  match fuel with O => 1 | S k => if c <? 10 then 1 else 1 + dec_digits_aux k (c / 10) end.
Definition dec_digits (c : Z) : Z := dec_digits_aux (Z.to_nat (Z.log2 c)) c.
(** n / 10^k, ties to even *)
Definition round_half_even (n k : Z) : Z :=
  let p := 10 ^ k in
  let q := n / p in
  let r := n mod p in
  if 2 * r <? p then q else if p <? 2 * r then q + 1 else if Z.even q then q else q + 1.
(** Rounding to the default context (28 digits, ROUND_HALF_EVEN).  Underflow (below 10^-999999) is
    not modelled: it is not trapped, and int() gives 0 either way. *)
Definition dec_fix (x : decimal) : decimal :=
  let k := dec_digits (d_coef x) - 28 in
  if k <=? 0 then x
  else
    let c := round_half_even (d_coef x) k in
    if 28 <? dec_digits c then mkDec (d_sign x) (c / 10) (d_exp x + k + 1)
    else mkDec (d_sign x) c (d_exp x + k).
(** Decimal * int: the int is converted exactly, the product is rounded. *)
Definition dec_mul_int (x : decimal) (n : Z) : decimal :=
  dec_fix (mkDec (xorb (d_sign x) (n <? 0)) (d_coef x * Z.abs n) (d_exp x)).
(** int(Decimal): towards zero *)
Definition int_of_dec (x : decimal) : Z :=
  cond_neg (d_sign x)
    (if 0 <=? d_exp x then d_coef x * 10 ^ d_exp x else d_coef x / 10 ^ (- d_exp x)).
(** the default context traps Overflow: a result other than zero whose leading digit stands for more
    than 10^Emax, Emax = 999999 *)
Definition dec_check (x : decimal) : res decimal :=
  if negb (d_coef x =? 0) && (999999 <? dec_digits (d_coef x) - 1 + d_exp x) then Raise DecimalOverflow else Ok x.
Definition FromDecimal_dec (x : decimal) : res Z := do y <- dec_check (dec_mul_int x D); Ok (int_of_dec y).
(** any Decimal: an infinity or a quiet NaN goes through the product and int() refuses it, a
    signalling NaN is refused by the product *)
Inductive any_decimal := DecFinite (x : decimal) | DecInf (neg : bool) | DecNaN (signalling : bool).
Definition FromDecimal_decimal (x : any_decimal) : res Z :=
  match x with
  | DecFinite x => FromDecimal_dec x
  | DecInf _ => Raise OverflowError
  | DecNaN signalling => Raise (if signalling then InvalidOperation else ValueError)
  end.

(** Fixed8.py:51-70 TryParse.  [val] is what the two try blocks leave. *)
Inductive numval := NFloat (f : pyfloat) | NInt (z : Z).
Definition finish_parse (val : option numval) (require_positive : bool) : res (option Z) :=
  match val with
  | None => Ok None
  | Some (NFloat f) =>
      if require_positive && fneg f then Ok None else do r <- py_int (fmul f F_D); Ok (Some r)
  | Some (NInt z) =>
      if require_positive && (z <? 0) then Ok None else Ok (Some (z * D))
  end.
(** if not val: try val = int(value) *)
Definition second_try (val : option pyfloat) (as_int : option Z) : option numval :=
  match val with
  | Some f => if ftruthy f then Some (NFloat f)
              else match as_int with Some z => Some (NInt z) | None => Some (NFloat f) end
  | None => option_map NInt as_int
  end.
Definition res_opt {A} (r : res A) : option A := match r with Ok a => Some a | Raise _ => None end.

Inductive parse_arg := PInt (z : Z) | PFloat (f : pyfloat) | PText (s : pystr) | PNone.
Definition TryParse (value : parse_arg) (require_positive : bool) : res (option Z) :=
  let '(as_float, as_int) :=
    match value with
    | PInt z => (res_opt (float_of_int z), Some z)
    | PFloat f => (Some f, res_opt (py_int f))
    | PText s => (float_of_text s, int_of_text s)
    | PNone => (None, None)
    end in
  finish_parse (second_try as_float as_int) require_positive.
