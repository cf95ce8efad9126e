(** * S_EC: vocabulary for the elliptic-curve properties C60-C70 *)
From Coq Require Import ZArith Znumtheory List.
From Verif Require Import M_Py S_IO.
Import ListNotations.
Open Scope Z_scope.

(** [p] divides the difference *)
Definition same (p a b : Z) : Prop := (p | a - b).
(** The affine equation y^2 = x^3 + a x + b modulo p. *)
Definition equation (p a b x y : Z) : Prop := same p (y * y) (x * x * x + a * x + b).
(** Coordinates in 0..p-1. *)
Definition canonical (p : Z) (P : Z * Z) : Prop := 0 <= fst P < p /\ 0 <= snd P < p.
(** A point of the curve as the API represents it: canonical coordinates satisfying the
    equation, or the pair (0,0) standing for infinity. *)
Definition is_point (p a b : Z) (P : Z * Z) : Prop :=
  canonical p P /\ (P = (0, 0) \/ equation p a b (fst P) (snd P)).
Definition square (p v : Z) : Prop := exists s, same p (s * s) v.

(** The chord-and-tangent addition; (0,0) is infinity.  l is the slope of the line. *)
Inductive sum (p a : Z) : Z * Z -> Z * Z -> Z * Z -> Prop :=
| sum_inf_l Q : sum p a (0, 0) Q Q
| sum_inf_r P : sum p a P (0, 0) P
| sum_opposite x1 y1 x2 y2 : (x1, y1) <> (0, 0) -> (x2, y2) <> (0, 0) ->
    same p x1 x2 -> same p y1 (- y2) -> sum p a (x1, y1) (x2, y2) (0, 0)
| sum_chord x1 y1 x2 y2 l x3 y3 : (x1, y1) <> (0, 0) -> (x2, y2) <> (0, 0) -> ~ same p x1 x2 ->
    same p (l * (x1 - x2)) (y1 - y2) ->
    same p x3 (l * l - x1 - x2) -> same p y3 (l * (x1 - x3) - y1) -> canonical p (x3, y3) ->
    sum p a (x1, y1) (x2, y2) (x3, y3)
| sum_tangent x1 y1 x2 y2 l x3 y3 : (x1, y1) <> (0, 0) -> (x2, y2) <> (0, 0) ->
    same p x1 x2 -> same p y1 y2 -> ~ same p y1 0 ->
    same p (l * (2 * y1)) (3 * (x1 * x1) + a) ->
    same p x3 (l * l - x1 - x1) -> same p y3 (l * (x1 - x3) - y1) -> canonical p (x3, y3) ->
    sum p a (x1, y1) (x2, y2) (x3, y3).

(** [enc] is a 32-byte big-endian number. *)
Definition be32 (z : Z) (enc : bytes) : Prop := length enc = 32%nat /\ num_be enc = z.
(** SEC 1 public key encodings (raw bytes). *)
Definition compressed_key (x y : Z) (enc : bytes) : Prop :=
  exists xb, be32 x xb /\ enc = (if Z.even y then x02 else x03) :: xb.
Definition uncompressed_key (x y : Z) (enc : bytes) : Prop :=
  exists xb yb, be32 x xb /\ be32 y yb /\ enc = x04 :: xb ++ yb.

(** The Lucas sequences: U_0 = 0, U_1 = 1, V_0 = 2, V_1 = P and
    X_{k+2} = P X_{k+1} - Q X_k; the pair is (X_k, X_{k+1}). *)
Fixpoint lucas_pair (P Q : Z) (x : Z * Z) (k : nat) : Z * Z :=
  match k with O => x | S k' => let '(u, v) := lucas_pair P Q x k' in (v, P * v - Q * u) end.
Definition lucas_U (P Q : Z) (k : nat) : Z := fst (lucas_pair P Q (0, 1) k).
Definition lucas_V (P Q : Z) (k : nat) : Z := fst (lucas_pair P Q (2, P) k).

(** [carries v unhex ba]: the argument pair (v, unhex) of a decoding function stands for
    the raw bytes [ba]: hexadecimal bytes or text with unhex=True, raw bytes otherwise. *)
Inductive carries : pyval -> bool -> bytes -> Prop :=
| carries_hex t ba : hex_denotes (map b2z t) ba -> carries (VBytes t) true ba
| carries_hexa t ba : hex_denotes (map b2z t) ba -> carries (VBytearray t) true ba
| carries_text s ba : hex_denotes s ba -> carries (VStr s) true ba
| carries_raw ba : carries (VBytes ba) false ba
| carries_rawa ba : carries (VBytearray ba) false ba.

(** [add_bits add bits acc shifter]: for each bit, from the lowest, add the shifter to the
    accumulator if the bit is set, and double the shifter.  With the binary digits of k this
    is multiplication by k. *)
Fixpoint add_bits {A} (add : A -> A -> A) (bits : list bool) (acc shifter : A) : A :=
  match bits with
  | [] => acc
  | b :: r => add_bits add r (if b then add acc shifter else acc) (add shifter shifter)
  end.
(** half of an integer, rounded to the nearest, ties to even *)
Definition half_even (z : Z) : Z := if Z.even z then z / 2 else if Z.even (z / 2) then z / 2 else z / 2 + 1.
(** the number of such halvings that lead from z to 0 *)
Inductive halvings : nat -> Z -> Prop :=
| halvings_0 : halvings 0 0
| halvings_S n z : z <> 0 -> halvings n (half_even z) -> halvings (S n) z.
