(** * M_BigMore: BigInteger (neocore/BigInteger.py) next to floats, in sums, and built from other values

    BigInteger.py overrides + - * / // % with methods that call int's and wrap the answer
    (BigInteger.py:29-60); everything else (comparisons, divmod, **, the reflected methods and the
    constructor) is inherited from int. *)
From Verif Require Import M_Py M_Float M_BigInteger M_Fixed8 M_Fixed8Big M_Fixed8Float M_Parse.

(** an int or BigInteger, or a float *)
Inductive bnum := BInt (n : pyint) | BFloat (f : pyfloat).
Definition number_of (a : bnum) : number := match a with BInt n => NumInt (pi_val n) | BFloat f => NumFloat f end.

Inductive arith := AAdd | ASub | AMul | ATrueDiv | AFloorDiv | AMod.
(** float's operators (M_Fixed8Float) *)
Definition float_arith (o : arith) : pyfloat -> pyfloat -> res pyfloat :=
  match o with
  | AAdd => fun x y => Ok (fadd x y) | ASub => fun x y => Ok (fsub x y) | AMul => fun x y => Ok (fmul x y)
  | ATrueDiv => nonzero fdiv | AFloorDiv => nonzero ffloordiv | AMod => nonzero frem
  end.
(** the operators on two ints of either class (M_BigInteger, M_Fixed8Big) *)
Definition int_arith (o : arith) (a b : pyint) : res bnum :=
  match o with
  | AAdd => rmap BInt (apply_op OAdd a b) | ASub => rmap BInt (apply_op OSub a b) | AMul => rmap BInt (apply_op OMul a b)
  | AFloorDiv => rmap BInt (apply_op OFloorDiv a b) | AMod => rmap BInt (apply_op OMod a b)
  | ATrueDiv => rmap (fun q => match q with QInt n => BInt n | QFloat f => BFloat f end) (py_truediv a b)
  end.
(** BigInteger.py:32-54 with a float on the right: int's method answers NotImplemented, which BigInteger()
    refuses with TypeError before float's reflected method is asked.  With a float on the left, or a plain int
    next to a float, float's own method answers; it takes a BigInteger as the int it is. *)
Definition big_arith (o : arith) (a b : bnum) : res bnum :=
  match a, b with
  | BInt x, BInt y => int_arith o x y
  | BInt (mkPI TBig _), BFloat _ => Raise TypeError
  | _, _ => do x <- to_double (number_of a); do y <- to_double (number_of b); rmap BFloat (float_arith o x y)
  end.
(** divmod(a, b) is not overridden: float's method answers as soon as one operand is a float *)
Definition big_divmod (a b : bnum) : res (bnum * bnum) :=
  match a, b with
  | BInt x, BInt y => rmap (fun '(q, r) => (BInt q, BInt r)) (py_divmod x y)
  | _, _ => do x <- to_double (number_of a); do y <- to_double (number_of b);
            if fis0 y then Raise ZeroDivisionError else Ok (BFloat (ffloordiv x y), BFloat (frem x y))
  end.
(** ** with a negative exponent is inherited from int too: float's power ([libm], on two finite floats) *)
Definition big_pow (libm : pyfloat -> pyfloat -> pyfloat) (a b : pyint) : res bnum :=
  if pi_val b <? 0 then rmap (fun n => match n with NumInt z => BInt (plain z) | NumFloat f => BFloat f end) (ff_pow libm (pi_val a) (pi_val b))
  else rmap BInt (apply_op OPow a b).
(** the comparisons are int's and float's *)
Definition big_eq (a b : bnum) : bool := ff_eq (number_of a) (number_of b).
Definition big_lt (a b : bnum) : bool := ff_lt (number_of a) (number_of b).
Definition big_gt (a b : bnum) : bool := ff_gt (number_of a) (number_of b).
Definition big_ge (a b : bnum) : bool := ff_ge (number_of a) (number_of b).
Definition big_le (a b : bnum) : bool := ff_le (number_of a) (number_of b).

(** sum(l, start) for ints and BigIntegers: start + l[0] + l[1] ... with the operator + *)
Fixpoint py_sum (start : pyint) (l : list pyint) : res pyint :=
  match l with [] => Ok start | x :: r => do s <- apply_op OAdd start x; py_sum s r end.

(** BigInteger(value) is int(value) with the other class (int.__new__): the text is read in base 10.
    [None] of M_Parse.int_of_text is ValueError.  For an object of another kind (AOther) the exception its
    int() raises is left out: TypeError stands for it. *)
Definition or_raise {A} (e : exn) (o : option A) : res A := match o with Some x => Ok x | None => Raise e end.
Definition big_new (U : unicode) (v : any_arg) : res pyint :=
  rmap (mkPI TBig)
    match v with
    | AText s => or_raise ValueError (int_of_text (to_ascii U s))
    | ABytes b => or_raise ValueError (int_of_text (map b2z b))
    | AInt z => Ok z
    | AFloat f => py_int f
    | ADecimal d => Ok (int_of_dec d)
    | ADecInf _ => Raise OverflowError
    | ADecNaN _ => Raise ValueError
    | AOther _ i => or_raise TypeError i
    end.
(** str(x), BigInteger.py:44-45: int's *)
Definition big_str (x : pyint) : pystr := int_text (pi_val x).
