(** * S_FloatIO: the IEEE 754 interchange formats, for C75 *)
From Coq Require Import Reals.
From Flocq Require Import Core BinarySingleNaN.
From Coq Require Import Floats.SpecFloat.
From Verif Require Import M_Py M_Float S_Float.
Open Scope Z_scope.

(** The float [f] is what the bit pattern [bits] of the format with [mw] fraction bits and [ew]
    exponent bits stands for: sign, biased exponent, fraction. *)
Definition ieee (mw ew bits : Z) (f : pyfloat) : Prop :=
  exists (s : bool) (ex fr : Z),
    bits = (if s then 1 else 0) * 2 ^ (ew + mw) + ex * 2 ^ mw + fr /\
    0 <= ex < 2 ^ ew /\ 0 <= fr < 2 ^ mw /\
    let bias := 2 ^ (ew - 1) - 1 in
    (ex = 2 ^ ew - 1 -> f = (if fr =? 0 then S754_infinity s else S754_nan)) /\
    (ex < 2 ^ ew - 1 -> sign_SF f = s /\
       float_is f ((if s then -1 else 1) *
                   (if ex =? 0 then IZR fr * bpow radix2 (1 - bias - mw)
                    else IZR (2 ^ mw + fr) * bpow radix2 (ex - bias - mw))%R)).
Definition binary32 := ieee 23 8.
Definition binary64 := ieee 52 11.

(** A Python float: not NaN, and the model's representation of a binary64 number. *)
Definition is_number (f : pyfloat) : Prop := valid_binary 53 1024 f = true /\ f <> S754_nan.
(** The nearest single-precision number, ties to even, exponent unbounded above. *)
Definition rnd32 (x : R) : R := round radix2 (FLT_exp (-149) 24) ZnearestE x.
