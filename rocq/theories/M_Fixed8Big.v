(** * M_Fixed8Big: Fixed8 objects whose value attribute is an int or a BigInteger

    Fixed8.__init__ (Fixed8.py:20-21) stores any number.  M_Fixed8 is the case of plain ints; here
    the value is a [pyint] (M_BigInteger), because BigInteger overrides the division operator
    (BigInteger.py:53-54) that Fixed8 uses for rounding and printing. *)
From Coq Require Import String.
From Verif Require Import M_Py M_Float M_BigInteger M_Fixed8 M_FloatRepr.

(** str(n) for an int; BigInteger.__str__ (BigInteger.py:44-45) is int's *)
Definition int_text (n : Z) : pystr := if n <? 0 then str "-" ++ dec_text (- n) else dec_text n.

(** a / b: a float unless the left operand is a BigInteger, whose __truediv__
    (BigInteger.py:53-54) is floor division; `int / BigInteger` is int's true division because
    BigInteger has no __rtruediv__ *)
Inductive quotient := QInt (q : pyint) | QFloat (f : pyfloat).
Definition py_truediv (a b : pyint) : res quotient :=
  match pi_cls a with
  | TBig => rmap QInt (big_truediv (pi_val a) (pi_val b))
  | TInt => rmap QFloat (int_truediv (pi_val a) (pi_val b))
  end.
(** int(q), math.ceil(q), math.floor(q): exact ints for any int *)
Definition q_int (q : quotient) : res Z := match q with QInt n => Ok (pi_val n) | QFloat f => py_int f end.
Definition q_ceil (q : quotient) : res Z := match q with QInt n => Ok (pi_val n) | QFloat f => py_ceil f end.
Definition q_floor (q : quotient) : res Z := match q with QInt n => Ok (pi_val n) | QFloat f => py_floor f end.
(** str(q) *)
Definition q_str (q : quotient) : pystr := match q with QInt n => int_text (pi_val n) | QFloat f => float_repr f end.

Definition plain (z : Z) : pyint := mkPI TInt z.

(** Fixed8.py:72-109 *)
Definition fb_add (a b : pyint) : res pyint := apply_op OAdd a b.
Definition fb_sub (a b : pyint) : res pyint := apply_op OSub a b.
Definition fb_mul (a b : pyint) : res pyint := apply_op OMul a b.
Definition fb_truediv (a b : pyint) : res pyint := do q <- py_truediv a b; rmap plain (q_int q).
Definition fb_floordiv (a b : pyint) : res pyint := apply_op OFloorDiv a b.
Definition fb_mod (a b : pyint) : res pyint := do r <- apply_op OMod a b; Ok (plain (pi_val r)).
Definition fb_neg (a : pyint) : res pyint := apply_op OMul (plain (-1)) a.
(** Fixed8.py:111-124 *)
Definition fb_eq (a b : pyint) : bool := pi_val a =? pi_val b.
Definition fb_lt (a b : pyint) : bool := pi_val a <? pi_val b.
(** Fixed8.py:126-145 *)
Definition fb_Ceil (v : pyint) : res pyint := do q <- py_truediv v (plain D); do c <- q_ceil q; Ok (plain (c * D)).
Definition fb_Floor (v : pyint) : res pyint := do q <- py_truediv v (plain D); do c <- q_floor q; Ok (plain (c * D)).
Definition fb_ToInt (v : pyint) : res Z := do q <- py_truediv v (plain D); q_int q.
Definition fb_ToString (v : pyint) : res pystr := do q <- py_truediv v (plain D); Ok (q_str q).
Definition fb_ToNeoJsonString (v : pyint) : res pystr :=
  do strval <- fb_ToString v;
  if pystr_eqb (skipn (length strval - 2) strval) (str ".0") then Ok (firstn (length strval - 2) strval)
  else Ok strval.
(** Fixed8.py:30-33 FromDecimal and 51-70 TryParse of an int or BigInteger: number * D *)
Definition fb_FromDecimal (n : pyint) : res pyint := do p <- apply_op OMul n (plain D); Ok (plain (pi_val p)).
