(** * S_Fixed8Float: vocabulary for amounts that hold a float *)
From Coq Require Import Reals.
From Flocq Require Import Core.
From Verif Require Import M_Py M_Float M_Fixed8 M_Fixed8Heap M_Fixed8Float S_Float.

(** the real number that a Python int or (finite) float stands for *)
Definition num_is (a : number) (x : R) : Prop :=
  match a with NumInt z => x = IZR z | NumFloat f => float_is f x end.
Definition is_float (a : number) : Prop := exists f, a = NumFloat f.
(** Amounts that can be built from ints: Fixed8(int) (also what FromDecimal, TryParse, ReadFixed8 and
    the constants give), the operators and Ceil/Floor, and powers with exponents >= 0. *)
Inductive built_from_ints : number -> Prop :=
| built_int z : built_from_ints (NumInt z)
| built_bin o a b r : built_from_ints a -> built_from_ints b -> ff_bin o a b = Ok r -> built_from_ints r
| built_un o a r : built_from_ints a -> ff_un o a = Ok r -> built_from_ints r
| built_pow libm a b r : built_from_ints (NumInt a) -> built_from_ints (NumInt b) -> (0 <= b)%Z -> ff_pow libm a b = Ok r -> built_from_ints r.
