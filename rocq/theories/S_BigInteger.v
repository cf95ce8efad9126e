(** * S_BigInteger: vocabulary for C35-C38 *)
From Verif Require Import M_Py M_BigInteger S_IO.

(** [d] is a little-endian two's complement encoding of [x]. *)
Definition twos_complement (d : bytes) (x : Z) : Prop :=
  d <> [] /\ - 256 ^ zlen d <= 2 * x < 256 ^ zlen d /\
  (num LE d = x \/ num LE d = x + 256 ^ zlen d).
(** [k] is the number of base-256 digits of m > 0. *)
Definition digits_256 (m k : Z) : Prop := 1 <= k /\ 256 ^ (k - 1) <= m < 256 ^ k.
(** The operators BigInteger overrides. *)
Definition overridden (o : iop) : Prop :=
  o = OAdd \/ o = OSub \/ o = OMul \/ o = OMod \/ o = OFloorDiv \/ o = ORShift \/ o = OLShift.
