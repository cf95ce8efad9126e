(** * M_Fixed8Dec: Fixed8 objects whose value attribute is an int or a decimal.Decimal (neocore/Fixed8.py)

    Fixed8.__init__ (Fixed8.py:20-21) stores what it is given, also the Decimal of Fixed8(Decimal('1.5')).
    The operations are decimal's (Lib/_pydecimal.py, default context: 28 digits, ROUND_HALF_EVEN, Emax =
    999999; Overflow, DivisionByZero and InvalidOperation trapped) on finite Decimals; an int operand is
    converted exactly.  Left out: results other than zero below 10^-999999 (subnormal; the model goes on with
    unbounded exponents), the sign of a zero result, infinities and NaNs, str() of a Decimal, and **. *)
From Verif Require Import M_Py M_Float M_Fixed8 M_Fixed8Heap M_Writer M_WriterArgs.

Inductive dnum := DInt (z : Z) | DDec (d : decimal).
(** _convert_other: an int becomes the Decimal with exponent 0 *)
Definition of_signed (z e : Z) : decimal := mkDec (z <? 0) (Z.abs z) e.
Definition as_dec (n : dnum) : decimal := match n with DInt z => of_signed z 0 | DDec d => d end.
Definition signed_coef (d : decimal) : Z := cond_neg (d_sign d) (d_coef d).
(** the coefficients over the smaller of the two exponents (_normalize) *)
Definition common_exp (x y : decimal) : Z := Z.min (d_exp x) (d_exp y).
Definition over (e : Z) (x : decimal) : Z := signed_coef x * 10 ^ (d_exp x - e).
(** _fix: rounding and the overflow check *)
Definition dec_finish (z e : Z) : res decimal := dec_check (dec_fix (of_signed z e)).
(** Decimal.__add__, __sub__, __mul__ *)
Definition dec_add (x y : decimal) : res decimal := let e := common_exp x y in dec_finish (over e x + over e y) e.
Definition dec_sub (x y : decimal) : res decimal := let e := common_exp x y in dec_finish (over e x - over e y) e.
Definition dec_mul (x y : decimal) : res decimal := dec_finish (signed_coef x * signed_coef y) (d_exp x + d_exp y).
(** Decimal.__truediv__: at least 28 + 1 digits of the quotient, the last one made odd or even so that the
    rounding sees whether there is a remainder.  (For exact quotients trailing zeros are taken away, which
    changes the representation only and is left out.)  0/0 is DivisionUndefined, an InvalidOperation; x/0 is
    DivisionByZero, a ZeroDivisionError *)
Definition dec_truediv (x y : decimal) : res decimal :=
  if d_coef y =? 0 then Raise (if d_coef x =? 0 then InvalidOperation else ZeroDivisionError)
  else
    let shift := dec_digits (d_coef y) - dec_digits (d_coef x) + 29 in
    let e := d_exp x - d_exp y - shift in
    let n := if 0 <=? shift then d_coef x * 10 ^ shift else d_coef x in
    let m := if 0 <=? shift then d_coef y else d_coef y * 10 ^ (- shift) in
    let q := n / m in
    let q' := if negb (n mod m =? 0) && (q mod 5 =? 0) then q + 1 else q in
    dec_finish (cond_neg (xorb (d_sign x) (d_sign y)) q') e.
(** _divide, for y other than 0: quotient towards zero and remainder; DivisionImpossible (an
    InvalidOperation) if the quotient has more than 28 digits *)
Definition dec_divide (x y : decimal) : res (Z * Z) :=
  let e := common_exp x y in
  let q := Z.quot (over e x) (over e y) in
  if Z.abs q <? 10 ^ 28 then Ok (q, Z.rem (over e x) (over e y)) else Raise InvalidOperation.
Definition dec_floordiv (x y : decimal) : res decimal :=
  if d_coef y =? 0 then Raise (if d_coef x =? 0 then InvalidOperation else ZeroDivisionError)
  else do qr <- dec_divide x y; Ok (of_signed (fst qr) 0).
Definition dec_mod (x y : decimal) : res decimal :=
  if d_coef y =? 0 then Raise InvalidOperation
  else do qr <- dec_divide x y; dec_finish (snd qr) (common_exp x y).
(** Decimal.__floor__, __ceil__ *)
Definition dec_floor (x : decimal) : Z :=
  if 0 <=? d_exp x then signed_coef x * 10 ^ d_exp x else signed_coef x / 10 ^ (- d_exp x).
Definition dec_ceil (x : decimal) : Z :=
  if 0 <=? d_exp x then signed_coef x * 10 ^ d_exp x else - (- signed_coef x / 10 ^ (- d_exp x)).
Definition D_dec : decimal := of_signed D 0.

(** Fixed8.py:72-103, by the kinds of the two values *)
Definition fd_bin (o : f8bin) (a b : dnum) : res dnum :=
  match a, b with
  | DInt x, DInt y => rmap DInt (bin_fn o x y)
  | _, _ =>
      let x := as_dec a in let y := as_dec b in
      match o with
      | BAdd => rmap DDec (dec_add x y) | BSub => rmap DDec (dec_sub x y) | BMul => rmap DDec (dec_mul x y)
      | BFloorDiv => rmap DDec (dec_floordiv x y)
      | BTrueDiv => do q <- dec_truediv x y; Ok (DInt (int_of_dec q))
      | BMod => do r <- dec_mod x y; Ok (DInt (int_of_dec r))
      end
  end.
(** Fixed8.py:108-109 and 126-133 *)
Definition fd_neg (a : dnum) : res dnum := fd_bin BMul (DInt (-1)) a.
Definition fd_Ceil (a : dnum) : res dnum :=
  match a with DInt z => rmap DInt (Ceil z) | DDec d => do q <- dec_truediv d D_dec; Ok (DInt (dec_ceil q * D)) end.
Definition fd_Floor (a : dnum) : res dnum :=
  match a with DInt z => rmap DInt (Floor z) | DDec d => do q <- dec_truediv d D_dec; Ok (DInt (dec_floor q * D)) end.
Definition fd_ToInt (a : dnum) : res Z :=
  match a with DInt z => ToInt z | DDec d => do q <- dec_truediv d D_dec; Ok (int_of_dec q) end.
(** Fixed8.py:111-124: comparisons of Decimals and ints are exact (_cmp) *)
Definition fd_compare (a b : dnum) : comparison :=
  let x := as_dec a in let y := as_dec b in let e := common_exp x y in over e x ?= over e y.
Definition fd_eq (a b : dnum) : bool := match fd_compare a b with Eq => true | _ => false end.
Definition fd_lt (a b : dnum) : bool := match fd_compare a b with Lt => true | _ => false end.
Definition fd_gt (a b : dnum) : bool := match fd_compare a b with Gt => true | _ => false end.
Definition fd_ge (a b : dnum) : bool := match fd_compare a b with Lt => false | _ => true end.
Definition fd_le (a b : dnum) : bool := match fd_compare a b with Gt => false | _ => true end.
(** BinaryWriter.py:437-450 WriteFixed8: struct refuses a Decimal for the format q *)
Definition fd_Write (a : dnum) : io Z := WriteInt64_any (match a with DInt z => VInt z | DDec _ => VOther end) LE.
