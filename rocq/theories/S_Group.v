(** * S_Group: vocabulary for C68, C77 and C85-C89 *)
From Coq Require Import ZArith Znumtheory List.
From Verif Require Import M_ECCurve S_IO S_EC.
Import ListNotations.
Open Scope Z_scope.

(** An elliptic curve over the integers modulo an odd prime, on which the pair (0,0) that the
    API uses for infinity is not a point: the discriminant and b are nonzero modulo p. *)
Definition elliptic (c : curve) : Prop :=
  prime (c_p c) /\ 2 < c_p c /\ ~ same (c_p c) (4 * (c_a c * c_a c * c_a c) + 27 * (c_b c * c_b c)) 0 /\ ~ same (c_p c) (c_b c) 0.
Definition point_of (c : curve) (P : Z * Z) : Prop := is_point (c_p c) (c_a c) (c_b c) P.
(** P + (P + ... + (P + infinity)) with k copies of P *)
Definition multiple (add : Z * Z -> Z * Z -> Z * Z) (k : Z) (P : Z * Z) : Z * Z := Z.iter k (add P) (0, 0).
(** the number with the given binary digits, the lowest first *)
Fixpoint number (bits : list bool) : Z := match bits with [] => 0 | b :: r => (if b then 1 else 0) + 2 * number r end.
(** the scalar u acts as M: on every such curve the product of a point with u is the M-fold sum *)
Definition acts (u M : Z) : Prop :=
  0 <= M /\ forall c P, elliptic c -> point_of c P -> ec_mul c P (M_ECCurve.AInt u) = M_Py.Ok (multiple (ec_add c) M P).
(** the number an argument of the field and signature functions stands for: an integer, a field
    value, or the big-endian number written as hexadecimal text *)
Inductive denotes_number : farg -> Z -> Prop :=
| dn_int z : denotes_number (AInt z) z
| dn_val z : denotes_number (AVal z) z
| dn_hex t b : hex_denotes t b -> denotes_number (AHex t) (num_be b).
