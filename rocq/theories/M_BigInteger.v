(** * M_BigInteger: neocore/BigInteger.py *)
From Verif Require Import M_Py.

(** A BigInteger's value is an unbounded Z.  [cls] records whether an operation
    returns BigInteger or plain int. *)
Inductive icls : Set := TBig | TInt.
Record pyint := mkPI { pi_cls : icls; pi_val : Z }.

(** BigInteger.py:2-8 Sign *)
Definition Sign (x : Z) : Z := if 0 <? x then 1 else if x =? 0 then 0 else -1.

(** BigInteger.py:10-12 FromBytes *)
Definition FromBytes (data : bytes) (signed : bool) : pyint :=
  mkPI TBig (int_from_bytes LE signed data).

(** the same with an argument of another type.  int.from_bytes converts its argument with bytes(...), but
    refuses numbers: bytes and bytearrays stand for themselves; a list (or another iterable) for its elements:
    TypeError for one that is not an int, ValueError for one outside range(256), whichever comes first; any
    other value is a TypeError *)
Inductive bytes_source := SVal (v : pyval) | SList (l : list pyval).
Definition source_byte (v : pyval) : res byte :=
  match as_int v with
  | Some z => if (0 <=? z) && (z <? 256) then Ok (z2b z) else Raise ValueError
  | None => Raise TypeError
  end.
Fixpoint source_bytes (l : list pyval) : res bytes :=
  match l with [] => Ok [] | v :: r => do b <- source_byte v; do bs <- source_bytes r; Ok (b :: bs) end.
Definition FromBytes_any (data : bytes_source) (signed : bool) : res pyint :=
  match data with
  | SVal (VBytes b) | SVal (VBytearray b) => Ok (FromBytes b signed)
  | SList l => do b <- source_bytes l; Ok (FromBytes b signed)
  | SVal _ => Raise TypeError
  end.

(** BigInteger.py:14-15 Equals *)
Definition Equals (x other : Z) : bool := x =? other.
(** the same with an argument of another type: int.__eq__, called by name as here, returns the object
    NotImplemented for one that is not an int.  In a condition (bool(...)) that object counts as true
    (with a DeprecationWarning since Python 3.9; Python 3.14 raises TypeError, which is not modelled). *)
Inductive answer := Answer (b : bool) | NotImplementedObject.
Definition Equals_any (x : Z) (other : pyval) : answer :=
  match as_int other with Some z => Answer (Equals x z) | None => NotImplementedObject end.
Definition truth (a : answer) : bool := match a with Answer b => b | NotImplementedObject => true end.
(** the operator ==, which BigInteger inherits: when int.__eq__ has no answer Python asks the other operand
    and then compares identities, so that texts, bytes and None are different from every number.  What
    another object ([VOther], for instance a float) answers is the parameter [asked]. *)
Definition big_eq_any (asked : bool) (x : Z) (other : pyval) : bool :=
  match Equals_any x other with
  | Answer b => b
  | NotImplementedObject => match other with VOther => asked | _ => false end
  end.

(** BigInteger.py:17-27 ToByteArray *)
Definition ToByteArray (x : Z) (signed : bool) : res bytes :=
  if x =? 0 then Ok [x00]
  else if x <? 0 then
    int_to_bytes LE true (Z.to_nat (1 + (bit_length x + 7) / 8)) x
  else
    match int_to_bytes LE signed (Z.to_nat ((bit_length x + 7) / 8)) x with
    | Raise OverflowError => int_to_bytes LE signed (Z.to_nat (1 + (bit_length x + 7) / 8)) x
    | r => r
    end.

(** BigInteger.py:29-60: arithmetic; the left operand is a BigInteger, the right
    one any int. *)
Definition big (z : Z) : res pyint := Ok (mkPI TBig z).
Definition big_abs (a : Z) : res pyint := big (Z.abs a).
Definition big_add (a b : Z) : res pyint := big (a + b).
Definition big_mod (a b : Z) : res pyint :=
  if b =? 0 then Raise ZeroDivisionError else big (a mod b).
Definition big_mul (a b : Z) : res pyint := big (a * b).
Definition big_neg (a : Z) : res pyint := big (- a).
Definition big_sub (a b : Z) : res pyint := big (a - b).
Definition big_floordiv (a b : Z) : res pyint :=
  if b =? 0 then Raise ZeroDivisionError else big (a / b).
(** BigInteger.py:53-54: __truediv__ calls int.__floordiv__ *)
Definition big_truediv (a b : Z) : res pyint :=
  if b =? 0 then Raise ZeroDivisionError else big (a / b).
(** int.__rshift__/__lshift__: negative counts raise ValueError (counts beyond
    the machine's memory are not modelled). *)
Definition big_rshift (a n : Z) : res pyint :=
  if n <? 0 then Raise ValueError else big (Z.shiftr a n).
Definition big_lshift (a n : Z) : res pyint :=
  if n <? 0 then Raise ValueError else big (Z.shiftl a n).

(** Python's operator dispatch on an int and a BigInteger (an int subclass).
    The overridden operators run when the LEFT operand is a BigInteger; with a
    plain int on the left Python calls the reflected method, which BigInteger.py
    does not override, so int's own result comes back; &, |, ^, ** (exponent >= 0)
    and divmod are never overridden.  `int / BigInteger` is a float (py_truediv in
    M_Fixed8Big); int_op's value for ** with a negative exponent, which is a float in
    Python, has no meaning and the theorems exclude it. *)
Inductive iop : Set := OAdd | OSub | OMul | OMod | OFloorDiv | ORShift | OLShift | OAnd | OOr | OXor | OPow.
Definition int_op (o : iop) (a b : Z) : res Z :=
  match o with
  | OAdd => Ok (a + b) | OSub => Ok (a - b) | OMul => Ok (a * b)
  | OMod => if b =? 0 then Raise ZeroDivisionError else Ok (a mod b)
  | OFloorDiv => if b =? 0 then Raise ZeroDivisionError else Ok (a / b)
  | ORShift => if b <? 0 then Raise ValueError else Ok (Z.shiftr a b)
  | OLShift => if b <? 0 then Raise ValueError else Ok (Z.shiftl a b)
  | OAnd => Ok (Z.land a b) | OOr => Ok (Z.lor a b) | OXor => Ok (Z.lxor a b)
  | OPow => Ok (a ^ b)
  end.
Definition as_plain (r : res Z) : res pyint := rmap (mkPI TInt) r.
Definition apply_op (o : iop) (a b : pyint) : res pyint :=
  match pi_cls a, o with
  | TBig, OAdd => big_add (pi_val a) (pi_val b)
  | TBig, OSub => big_sub (pi_val a) (pi_val b)
  | TBig, OMul => big_mul (pi_val a) (pi_val b)
  | TBig, OMod => big_mod (pi_val a) (pi_val b)
  | TBig, OFloorDiv => big_floordiv (pi_val a) (pi_val b)
  | TBig, ORShift => big_rshift (pi_val a) (pi_val b)
  | TBig, OLShift => big_lshift (pi_val a) (pi_val b)
  | _, _ => as_plain (int_op o (pi_val a) (pi_val b))
  end.

(** divmod(a, b), +a and ~a: not overridden by BigInteger.py:1-60, so int's own methods answer,
    with plain ints, also for two BigIntegers. *)
Definition py_divmod (a b : pyint) : res (pyint * pyint) :=
  if pi_val b =? 0 then Raise ZeroDivisionError
  else Ok (mkPI TInt (pi_val a / pi_val b), mkPI TInt (pi_val a mod pi_val b)).
Definition py_pos (a : pyint) : res pyint := as_plain (Ok (pi_val a)).
Definition py_invert (a : pyint) : res pyint := as_plain (Ok (Z.lnot (pi_val a))).

(** BigInteger.py:32-60 with a right operand of any type: int's method returns NotImplemented for
    anything that is not an int (also for a float, and for a sequence in a product), and
    BigInteger(NotImplemented) raises TypeError before Python could try the other operand. *)
Definition big_op_any (o : iop) (a : Z) (v : pyval) : res pyint :=
  match as_int v with
  | Some z => apply_op o (mkPI TBig a) (mkPI TInt z)
  | None => Raise TypeError
  end.
Definition big_truediv_any (a : Z) (v : pyval) : res pyint :=
  match as_int v with Some z => big_truediv a z | None => Raise TypeError end.

(** BigInteger.py:63-64 *)
Definition ZERO : Z := 0.
Definition ONE : Z := 1.
