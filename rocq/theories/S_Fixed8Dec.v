(** * S_Fixed8Dec: vocabulary for amounts that hold a Decimal (C124) *)
From Coq Require Import Reals.
From Flocq Require Import Core.
From Verif Require Import M_Py M_Fixed8 M_Fixed8Dec.

Definition ten : radix := Build_radix 10 eq_refl.
(** the decimal number of at most 28 digits nearest to a real number, ties to the even last digit; exponents
    unbounded (bpow ten k is 10^k) *)
Definition rnd28 (x : R) : R := round ten (FLX_exp 28) ZnearestE x.
(** the real number a finite Decimal, or an int, stands for *)
Definition dec_is (d : decimal) (x : R) : Prop :=
  (0 <= d_coef d)%Z /\ x = ((if d_sign d then -1 else 1) * IZR (d_coef d) * bpow ten (d_exp d))%R.
Definition dnum_is (a : dnum) (x : R) : Prop := match a with DInt z => x = IZR z | DDec d => dec_is d x end.
Definition is_dec (a : dnum) : Prop := exists d, a = DDec d.
(** results the context can hold *)
Definition too_large (x : R) : Prop := (bpow ten 1000000 <= Rabs x)%R.
(** a computed Decimal: the rounded exact result, or Overflow *)
Definition computes (r : res dnum) (x : R) : Prop :=
  (~ too_large (rnd28 x) /\ exists d, r = Ok (DDec d) /\ dec_is d (rnd28 x)) \/ (too_large (rnd28 x) /\ r = Raise DecimalOverflow).
(** the int made of a rounded quotient or remainder *)
Definition computes_int (r : res dnum) (f : R -> Z) (x : R) : Prop :=
  (~ too_large (rnd28 x) /\ r = Ok (DInt (f (rnd28 x)))) \/ (too_large (rnd28 x) /\ r = Raise DecimalOverflow).
