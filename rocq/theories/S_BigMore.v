(** * S_BigMore: vocabulary for C122 and C123 *)
From Coq Require Import Reals.
From Verif Require Import M_Py M_Float M_BigInteger M_BigMore M_Fixed8 S_Float S_Fixed8 S_Parse.

(** the real number that an int, BigInteger or finite float stands for *)
Definition bnum_is (a : bnum) (x : R) : Prop :=
  match a with BInt n => x = IZR (pi_val n) | BFloat f => float_is f x end.
Definition is_bfloat (a : bnum) : Prop := exists f, a = BFloat f.
(** the result of an operation on reals in float arithmetic: the nearest float *)
Definition gives (r : res bnum) (x : R) : Prop := exists f, r = Ok (BFloat f) /\ float_is f (rnd64 x).

(** the texts int() reads in base 10 (the grammar of the Python reference, with PEP 515 underscores) *)
Definition int_literal (t : pystr) (z : Z) : Prop :=
  exists b1 sg neg a ds b2, t = b1 ++ sg ++ a ++ b2 /\ blanks b1 /\ blanks b2 /\ sign_part sg neg /\ digit_part a ds /\
    z = (if neg then -1 else 1) * decimal_number ds.
