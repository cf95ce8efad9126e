(** * M_Fixed8Float: Fixed8 objects whose value attribute is an int or a float (neocore/Fixed8.py)

    Fixed8.__init__ (Fixed8.py:20-21) stores what it is given, also the float of `Fixed8(1.5)`, and
    `**` with a negative exponent (Fixed8.py:105-106) makes a float itself.  M_Fixed8 is the case of
    ints only.  The float operations are CPython's (Objects/floatobject.c) over SpecFloat. *)
From Coq Require Import Floats.SpecFloat.
From Verif Require Import M_Py M_Float M_Fixed8 M_Fixed8Heap M_FloatRepr M_Writer M_WriterArgs.

Inductive number := NumInt (z : Z) | NumFloat (f : pyfloat).

(** CONVERT_TO_DOUBLE: an int operand of a float operation becomes the nearest float, OverflowError
    when it is too large *)
Definition to_double (n : number) : res pyfloat := match n with NumInt z => float_of_int z | NumFloat f => Ok f end.
Definition fadd (x y : pyfloat) : pyfloat := SFadd fprec femax x y.
Definition fsub (x y : pyfloat) : pyfloat := SFsub fprec femax x y.
Definition fdiv (x y : pyfloat) : pyfloat := SFdiv fprec femax x y.
Definition fis0 (x : pyfloat) : bool := negb (ftruthy x).
Definition fsign (x : pyfloat) : bool := match x with S754_zero s | S754_infinity s | S754_finite s _ _ => s | S754_nan => false end.
Definition fone : pyfloat := S754_finite false 4503599627370496 (-52).
Definition fhalf : pyfloat := S754_finite false 4503599627370496 (-53).
(** C's fmod: exact, with the sign of x; nan for an infinite x or a zero y *)
Definition fmod (x y : pyfloat) : pyfloat :=
  match x, y with
  | S754_nan, _ | _, S754_nan | S754_infinity _, _ | _, S754_zero _ => S754_nan
  | S754_zero _, _ | _, S754_infinity _ => x
  | S754_finite s m e, S754_finite _ m' e' =>
      let k := Z.min e e' in
      let r := (Zpos m * 2 ^ (e - k)) mod (Zpos m' * 2 ^ (e' - k)) in
      if r =? 0 then S754_zero s else binary_normalize fprec femax (cond_neg s r) k s
  end.
(** C's floor *)
Definition ffloor (x : pyfloat) : pyfloat :=
  match x with
  | S754_finite s m e =>
      if 0 <=? e then x
      else match floor_dyadic s m e with Z0 => S754_zero s | z => binary_normalize fprec femax z 0 s end
  | _ => x
  end.
(** float_rem, for y other than 0: the remainder gets the sign of y *)
Definition frem (x y : pyfloat) : pyfloat :=
  let md := fmod x y in
  if fis0 md then S754_zero (fsign y)
  else if xorb (fneg y) (fneg md) then fadd md y else md.
(** _float_div_mod, for y other than 0: the quotient of x // y *)
Definition ffloordiv (x y : pyfloat) : pyfloat :=
  let md := fmod x y in
  let div := fdiv (fsub x md) y in
  let div := if negb (fis0 md) && xorb (fneg y) (fneg md) then fsub div fone else div in
  if fis0 div then S754_zero (fsign (fdiv x y))
  else
    let floordiv := ffloor div in
    if SFltb fhalf (fsub div floordiv) then fadd floordiv fone else floordiv.

(** a op b for numbers: on two ints int's operation, otherwise float's *)
Definition num_op (on_ints : Z -> Z -> res Z) (on_floats : pyfloat -> pyfloat -> res pyfloat) (a b : number) : res number :=
  match a, b with
  | NumInt x, NumInt y => rmap NumInt (on_ints x y)
  | _, _ => do x <- to_double a; do y <- to_double b; rmap NumFloat (on_floats x y)
  end.
Definition nonzero (f : pyfloat -> pyfloat -> pyfloat) (x y : pyfloat) : res pyfloat :=
  if fis0 y then Raise ZeroDivisionError else Ok (f x y).
(** a / b *)
Definition num_truediv (a b : number) : res pyfloat :=
  match a, b with
  | NumInt x, NumInt y => int_truediv x y
  | _, _ => do x <- to_double a; do y <- to_double b; nonzero fdiv x y
  end.
(** int(a) *)
Definition num_int (a : number) : res Z := match a with NumInt z => Ok z | NumFloat f => py_int f end.

(** Fixed8.py:72-103 __add__ .. __mod__ *)
Definition ff_add : number -> number -> res number := num_op f8_add (fun x y => Ok (fadd x y)).
Definition ff_sub : number -> number -> res number := num_op f8_sub (fun x y => Ok (fsub x y)).
Definition ff_mul : number -> number -> res number := num_op f8_mul (fun x y => Ok (fmul x y)).
Definition ff_truediv (a b : number) : res number := do q <- num_truediv a b; rmap NumInt (py_int q).
Definition ff_floordiv : number -> number -> res number := num_op f8_floordiv (nonzero ffloordiv).
Definition ff_mod (a b : number) : res number :=
  do r <- num_op f8_mod (nonzero frem) a b; rmap NumInt (num_int r).
Definition ff_bin (o : f8bin) : number -> number -> res number :=
  match o with BAdd => ff_add | BSub => ff_sub | BMul => ff_mul | BTrueDiv => ff_truediv | BFloorDiv => ff_floordiv | BMod => ff_mod end.
(** Fixed8.py:105-106 pow(a, b, None) on ints (long_pow): a negative exponent goes to float's power;
    [libm] is the rest of float_pow, on two finite floats, the second negative *)
Definition ff_pow (libm : pyfloat -> pyfloat -> pyfloat) (a b : Z) : res number :=
  if b <? 0 then
    do x <- float_of_int a; do y <- float_of_int b;
    if fis0 x then Raise ZeroDivisionError else Ok (NumFloat (libm x y))
  else rmap NumInt (f8_pow a b).
(** Fixed8.py:108-109 __neg__: -1 * value *)
Definition ff_neg (a : number) : res number := ff_mul (NumInt (-1)) a.

(** Comparisons (float_richcompare): an int and a float are compared exactly; nan is unordered *)
Definition cmp_int_float (z : Z) (f : pyfloat) : option comparison :=
  match f with
  | S754_nan => None
  | S754_infinity s => Some (if s then Gt else Lt)
  | S754_zero _ => Some (z ?= 0)
  | S754_finite s m e =>
      Some (if 0 <=? e then z ?= cond_neg s (Zpos m) * 2 ^ e else z * 2 ^ (- e) ?= cond_neg s (Zpos m))
  end.
Definition num_compare (a b : number) : option comparison :=
  match a, b with
  | NumInt x, NumInt y => Some (x ?= y)
  | NumInt x, NumFloat f => cmp_int_float x f
  | NumFloat f, NumInt y => option_map CompOpp (cmp_int_float y f)
  | NumFloat f, NumFloat g => SFcompare f g
  end.
(** Fixed8.py:111-124 *)
Definition ff_eq (a b : number) : bool := match num_compare a b with Some Eq => true | _ => false end.
Definition ff_lt (a b : number) : bool := match num_compare a b with Some Lt => true | _ => false end.
Definition ff_gt (a b : number) : bool := match num_compare a b with Some Gt => true | _ => false end.
Definition ff_ge (a b : number) : bool := match num_compare a b with Some Gt | Some Eq => true | _ => false end.
Definition ff_le (a b : number) : bool := match num_compare a b with Some Lt | Some Eq => true | _ => false end.

(** Fixed8.py:126-142 Ceil, Floor, ToInt, ToString: value / D is a float *)
Definition ff_Ceil (v : number) : res number := do q <- num_truediv v (NumInt D); do c <- py_ceil q; Ok (NumInt (c * D)).
Definition ff_Floor (v : number) : res number := do q <- num_truediv v (NumInt D); do c <- py_floor q; Ok (NumInt (c * D)).
Definition ff_un (o : f8un) : number -> res number := match o with UNeg => ff_neg | UCeil => ff_Ceil | UFloor => ff_Floor end.
Definition ff_ToInt (v : number) : res Z := do q <- num_truediv v (NumInt D); py_int q.
Definition ff_ToString (v : number) : res pystr := do q <- num_truediv v (NumInt D); Ok (float_repr q).

(** BinaryWriter.py:437-450 WriteFixed8: struct refuses a float for the format q (to the writer a
    float is one of the values that are no ints, VOther) *)
Definition ff_Write (v : number) : io Z :=
  WriteInt64_any (match v with NumInt z => VInt z | NumFloat _ => VOther end) LE.
