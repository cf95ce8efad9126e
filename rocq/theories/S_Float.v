(** * S_Float: real-number vocabulary for the float properties *)
From Coq Require Import Reals.
From Flocq Require Import Core.
From Flocq Require Import BinarySingleNaN.
From Coq Require Import Floats.SpecFloat.
From Verif Require Import M_Py M_Float.

(** The binary64 number nearest to a real number, ties to even, exponent unbounded above. *)
Definition rnd64 (x : R) : R := round radix2 (FLT_exp (-1074) 53) ZnearestE x.
(** Numbers that do not round to a finite float. *)
Definition overflows (x : R) : Prop := (bpow radix2 1024 <= Rabs (rnd64 x))%R.
(** [f] is a finite float with the real value [x]. *)
Definition float_is (f : pyfloat) (x : R) : Prop :=
  is_finite_SF f = true /\ valid_binary 53 1024 f = true /\ SF2R radix2 f = x.
