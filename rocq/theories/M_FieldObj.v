(** * M_FieldObj: field values and points as objects (neocore/Cryptography/ECCurve.py)

    M_ECCurve keeps of a FiniteField.Value only its integer.  Here a value also knows its field
    object and a point its curve object, because ECDSA.secp256r1() and its siblings
    (ECCurve.py:804-882) make new field and curve objects at every call: programs mix
    values and points of several objects all the time.  Field and curve objects are numbered;
    they have no __eq__, so == on them is identity. *)
From Coq Require Import String.
From Verif Require Import M_Py M_Float M_UInt M_FloatRepr M_Fixed8Big M_ECCurve.

(** the objects alive: the modulus of each field object, and for each curve object its field
    object and the integers of its coefficients (:477-480: both are values of that field) *)
Record world := mkWorld { w_p : nat -> Z; w_field : nat -> nat; w_a : nat -> Z; w_b : nat -> Z }.
(** FiniteField.Value (:199-201) *)
Record fvalue := mkV { v_f : nat; v_v : Z }.
(** operands: an int, a Value of any field, hexadecimal text *)
Inductive oarg := OI (z : Z) | OV (v : fvalue) | OH (s : pystr).
(** what the methods add, sub, mul, div of a field return: a Value, or the False of samefield *)
Inductive fresult := FVal (v : fvalue) | FFalse.

(** :322-330 integer *)
Definition f_integer (x : oarg) : res Z :=
  match x with OI z => Ok z | OV v => Ok (v_v v) | OH s => do b <- unhexlify (VStr s); Ok (bytes2z BE b) end.
(** :316-320 value, with Value.__init__ :199-201: the number is not reduced *)
Definition f_value (f : nat) (x : oarg) : res fvalue :=
  match x with
  | OV v => if Nat.eqb (v_f v) f then Ok v else Ok (mkV f (v_v v))
  | _ => do z <- f_integer x; Ok (mkV f z)
  end.
(** :31-37 samefield *)
Definition samefield (a b : fvalue) : bool := Nat.eqb (v_f a) (v_f b).
(** :266-276 FiniteField.add, sub, mul, div of the field object f; :310-314 inverse belongs to the
    field of the right operand *)
Definition f_add (W : world) (f : nat) (l r : fvalue) : fresult :=
  if samefield l r then FVal (mkV f ((v_v l + v_v r) mod w_p W f)) else FFalse.
Definition f_sub (W : world) (f : nat) (l r : fvalue) : fresult :=
  if samefield l r then FVal (mkV f ((v_v l - v_v r) mod w_p W f)) else FFalse.
Definition f_mul (W : world) (f : nat) (l r : fvalue) : fresult :=
  if samefield l r then FVal (mkV f ((v_v l * v_v r) mod w_p W f)) else FFalse.
Definition f_div (W : world) (f : nat) (l r : fvalue) : fresult :=
  if samefield l r then FVal (mkV f ((v_v l * modinv (v_v r) (w_p W (v_f r))) mod w_p W f)) else FFalse.
(** the builtin pow(a, e, m), m > 0.  A negative e is a ValueError before Python 3.8 ([new] =
    false); since then it inverts a, and raises ValueError when that is impossible. *)
Definition py_pow3 (new : bool) (a e m : Z) : res Z :=
  if 0 <=? e then Ok (modpow a e m)
  else if new && (Z.gcd a m =? 1) then Ok (modpow (modinv (a mod m) m) (- e) m) else Raise ValueError.
(** :278-279 pow *)
Definition f_pow (new : bool) (W : world) (f : nat) (l : fvalue) (r : oarg) : res fvalue :=
  do e <- f_integer r; do z <- py_pow3 new (v_v l) e (w_p W f); Ok (mkV f z).
(** :281-282 eq, :284-285 neg *)
Definition f_eq (W : world) (f : nat) (l r : fvalue) : bool := (v_v l - v_v r) mod w_p W f =? 0.
Definition f_neg (W : world) (f : nat) (v : fvalue) : fvalue := mkV f (w_p W f - v_v v).

(** ** the operators of Value (:204-257) *)
Definition v_add (W : world) (x : fvalue) (y : oarg) : res fresult := do r <- f_value (v_f x) y; Ok (f_add W (v_f x) x r).
Definition v_sub (W : world) (x : fvalue) (y : oarg) : res fresult := do r <- f_value (v_f x) y; Ok (f_sub W (v_f x) x r).
Definition v_mul (W : world) (x : fvalue) (y : oarg) : res fresult := do r <- f_value (v_f x) y; Ok (f_mul W (v_f x) x r).
Definition v_div (W : world) (x : fvalue) (y : oarg) : res fresult := do r <- f_value (v_f x) y; Ok (f_div W (v_f x) x r).
Definition v_pow (new : bool) (W : world) (x : fvalue) (y : oarg) : res fvalue := f_pow new W (v_f x) x y.
(** :220-233 the reflected ones: y op x for a y that is no Value (__rdiv__ is not called by
    Python 3) *)
Definition v_radd (W : world) (x : fvalue) (y : oarg) : res fresult := do l <- f_value (v_f x) y; Ok (f_add W (v_f x) l x).
Definition v_rsub (W : world) (x : fvalue) (y : oarg) : res fresult := do l <- f_value (v_f x) y; Ok (f_sub W (v_f x) l x).
Definition v_rmul (W : world) (x : fvalue) (y : oarg) : res fresult := do l <- f_value (v_f x) y; Ok (f_mul W (v_f x) l x).
Definition v_rpow (new : bool) (W : world) (x : fvalue) (y : oarg) : res fvalue := do l <- f_value (v_f x) y; f_pow new W (v_f x) l (OV x).
Definition v_eq (W : world) (x : fvalue) (y : oarg) : res bool := do r <- f_value (v_f x) y; Ok (f_eq W (v_f x) x r).
Definition v_neg (W : world) (x : fvalue) : fvalue := f_neg W (v_f x) x.
Definition v_iszero (x : fvalue) : bool := v_v x =? 0.
(** :241-242 __str__: "0x%s" of an int gives decimal digits *)
Definition v_str (x : fvalue) : pystr := str "0x" ++ int_text (v_v x).

(** ** points *)
Record opoint := mkP { o_c : nat; o_x : fvalue; o_y : fvalue }.
(** the value an operator returned.  On False the expression would go on with the int 0;
    C97_operators shows that it does not happen. *)
Definition the (r : res fresult) : res fvalue :=
  do x <- r; match x with FVal v => Ok v | FFalse => Raise NotImplementedError end.
(** :550-554 point, for Values *)
Definition c_point (W : world) (c : nat) (x y : fvalue) : res opoint :=
  do x <- f_value (w_field W c) (OV x); do y <- f_value (w_field W c) (OV y); Ok (mkP c x y).
(** :543-548 zero, :482-484 Infinity *)
Definition c_zero (W : world) (c : nat) : opoint := mkP c (mkV (w_field W c) 0) (mkV (w_field W c) 0).
Definition c_a_value (W : world) (c : nat) : fvalue := mkV (w_field W c) (w_a W c).
Definition c_b_value (W : world) (c : nat) : fvalue := mkV (w_field W c) (w_b W c).
(** :424-425 iszero; :378-379 __eq__ with :537-538 eq *)
Definition o_iszero (P : opoint) : bool := v_iszero (o_x P) && v_iszero (o_y P).
Definition o_eq (W : world) (P Q : opoint) : res bool :=
  do a <- v_eq W (o_x P) (OV (o_x Q)); if a then v_eq W (o_y P) (OV (o_y Q)) else Ok false.
(** :496-509 the part of add after the slope *)
Definition c_finish (W : world) (c : nat) (P Q : opoint) (lft : fvalue) : res opoint :=
  do l2 <- v_pow false W lft (OI 2);
  do s <- the (v_add W (o_x P) (OV (o_x Q)));
  do x <- the (v_sub W l2 (OV s));
  do d <- the (v_sub W (o_x P) (OV x));
  do t <- the (v_mul W lft (OV d));
  do y <- the (v_sub W t (OV (o_y P)));
  c_point W c x y.
(** :486-509 EllipticCurve.add of the curve object c *)
Definition c_add (W : world) (c : nat) (P Q : opoint) : res opoint :=
  if o_iszero P then Ok Q
  else if o_iszero Q then Ok P
  else
    do e <- o_eq W P Q;
    if e then
      do z <- v_eq W (o_y P) (OI 0);
      if z then Ok (c_zero W c)
      else
        do x2 <- v_pow false W (o_x P) (OI 2);
        do t <- the (v_rmul W x2 (OI 3));
        do n <- the (v_add W t (OV (c_a_value W c)));
        do d <- the (v_rmul W (o_y P) (OI 2));
        do lft <- the (v_div W n (OV d));
        c_finish W c P Q lft
    else
      do ex <- v_eq W (o_x P) (OV (o_x Q));
      if ex then Ok (c_zero W c)
      else
        do n <- the (v_sub W (o_y P) (OV (o_y Q)));
        do d <- the (v_sub W (o_x P) (OV (o_x Q)));
        do lft <- the (v_div W n (OV d));
        c_finish W c P Q lft.
(** :365-366 __add__; :421-422 __neg__ with :540-541 neg; :368-369 __sub__ with :512-513 sub *)
Definition o_add (W : world) (P Q : opoint) : res opoint := c_add W (o_c P) P Q.
Definition o_neg (W : world) (P : opoint) : res opoint := c_point W (o_c P) (o_x P) (v_neg W (o_y P)).
Definition o_sub (W : world) (P Q : opoint) : res opoint := do n <- o_neg W Q; o_add W P n.
(** :372-373 __mul__ with :516-528 mul *)
Fixpoint o_mul_float (fuel : nat) (W : world) (acc shifter : opoint) (scalar : pyfloat) : res opoint :=
  match fuel with
  | O => Ok acc
  | S k =>
      if negb (ftruthy scalar) then Ok acc
      else
        do acc <- (if f_even scalar then Ok acc else o_add W acc shifter);
        do shifter <- o_add W shifter shifter;
        o_mul_float k W acc shifter (f_half scalar)
  end.
Definition o_mul (W : world) (P : opoint) (scalar : oarg) : res opoint :=
  do scalar <- f_integer scalar;
  if scalar =? 0 then Ok (c_zero W (o_c P))
  else
    do acc <- (if scalar mod 2 =? 0 then Ok (c_zero W (o_c P)) else o_add W (c_zero W (o_c P)) P);
    do sh <- o_add W P P;
    do s <- int_truediv scalar 2;
    o_mul_float 2200 W acc sh s.
(** :556-560 isoncurve of the curve object c; :427-428 the method of a point *)
Definition c_isoncurve (W : world) (c : nat) (P : opoint) : res bool :=
  if o_iszero P then Ok true
  else
    do y2 <- v_pow false W (o_y P) (OI 2);
    do x3 <- v_pow false W (o_x P) (OI 3);
    do ax <- the (v_mul W (c_a_value W c) (OV (o_x P)));
    do s <- the (v_add W x3 (OV ax));
    do r <- the (v_add W s (OV (c_b_value W c)));
    v_eq W y2 (OV r).
Definition o_isoncurve (W : world) (P : opoint) : res bool := c_isoncurve W (o_c P) P.
(** :384-394 __lt__ *)
Definition o_lt (W : world) (P Q : opoint) : res bool :=
  do e <- o_eq W Q P;
  if e then Ok false
  else if v_v (o_x P) <? v_v (o_x Q) then Ok true
  else if v_v (o_x P) >? v_v (o_x Q) then Ok false
  else if v_v (o_x P) =? v_v (o_x Q) then Ok false
  else Ok (v_v (o_y P) <? v_v (o_y Q)).
(** :418-419 __str__ *)
Definition o_str (P : opoint) : pystr := str "(" ++ v_str (o_x P) ++ str "," ++ v_str (o_y P) ++ str ")".
