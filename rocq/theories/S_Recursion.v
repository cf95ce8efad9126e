(** * S_Recursion: vocabulary for C114 *)
From Verif Require Import M_Py.

(** [euclid a b n]: Euclid's algorithm on a and b, replacing (a, b) by (b mod a, a) as long as a
    is not zero, looks at n pairs. *)
Inductive euclid : Z -> Z -> nat -> Prop :=
| euclid_end b : euclid 0 b 1
| euclid_step a b n : a <> 0 -> euclid (b mod a) a n -> euclid a b (S n).

(** The Fibonacci numbers 0, 1, 1, 2, 3, 5, ... *)
Inductive fibonacci : nat -> Z -> Prop :=
| fib_0 : fibonacci 0 0
| fib_1 : fibonacci 1 1
| fib_next n a b : fibonacci n a -> fibonacci (S n) b -> fibonacci (S (S n)) (a + b).
