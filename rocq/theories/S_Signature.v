(** * S_Signature: vocabulary for C99-C101 *)
From Coq Require Import ZArith List.
From Verif Require Import M_Py M_ECCurve S_IO S_KeyPair S_EC S_Group.
From Verif Require M_Hash.
Import ListNotations.
Open Scope Z_scope.

(** the order of the base point of P-256 (SEC 2) *)
Definition n_r1 : Z := 0xFFFFFFFF00000000FFFFFFFFFFFFFFFFBCE6FAADA7179E84F3B9CAC2FC632551.
(** the k-fold sum of a point of P-256, by the addition of C85 *)
Definition r1_add : Z * Z -> Z * Z -> Z * Z := ec_add secp256r1.
Definition r1_times (k : Z) (P : Z * Z) : Z * Z := multiple r1_add k P.

(** [private_number v d]: the private_key argument [v] of Sign stands for the number [d]: 32
    bytes, the hexadecimal text (str or bytes) of 32 bytes, or an int. *)
Inductive private_number : pyval -> Z -> Prop :=
| pn_bytes v b : bytes_arg v b -> length b = 32%nat -> private_number v (num_be b)
| pn_hex v t b : text_arg v t -> hex_denotes t b -> length b = 32%nat -> private_number v (num_be b)
| pn_int z : private_number (VInt z) z.

(** A public key as ANSI X9.62 wants it: a point of the curve other than infinity, whose n-fold
    sum is infinity - and, which the standard does not ask for, with both coordinates below n. *)
Definition acceptable_key (x y : Z) : Prop :=
  point_of secp256r1 (x, y) /\ (x, y) <> (0, 0) /\ r1_times n_r1 (x, y) = (0, 0) /\ x < n_r1 /\ y < n_r1.
(** The ECDSA verification equation for the digest number [z]: the inverse w of s modulo n, and
    the point (z w) G + (r w) Q, whose x coordinate is r modulo n. *)
Definition ecdsa_valid (Q : Z * Z) (z r s : Z) : Prop :=
  1 <= r < n_r1 /\ 1 <= s < n_r1 /\
  exists w, same n_r1 (w * s) 1 /\
    let R := r1_add (r1_times (z * w mod n_r1) G256) (r1_times (r * w mod n_r1) Q) in
    R <> (0, 0) /\ same n_r1 (fst R) r.

(** [hmac_is H key msg mac]: HMAC-SHA-256 (RFC 2104) for keys of at most 64 bytes: the key is
    padded with zeros to 64 bytes and xored with 0x36 and 0x5c. *)
Definition hmac_is (H : M_Hash.hashes) (key msg mac : bytes) : Prop :=
  exists zeros inner outer, Forall (eq x00) zeros /\ length (key ++ zeros) = 64%nat /\
    xored (key ++ zeros) (repeat x36 64) inner /\ xored (key ++ zeros) (repeat x5c 64) outer /\
    mac = M_Hash.sha256 H (outer ++ M_Hash.sha256 H (inner ++ msg)).
(** [rfc6979_first H priv digest k]: the first candidate for the nonce in RFC 6979, 3.2 (steps b to
    h.2), with the digest itself where the RFC has the digest reduced modulo n. *)
Definition rfc6979_first (H : M_Hash.hashes) (priv digest : bytes) (k : Z) : Prop :=
  let V0 := repeat x01 32 in let K0 := repeat x00 32 in
  exists K1 V1 K2 V2 T,
    hmac_is H K0 (V0 ++ [x00] ++ priv ++ digest) K1 /\ hmac_is H K1 V0 V1 /\
    hmac_is H K1 (V1 ++ [x01] ++ priv ++ digest) K2 /\ hmac_is H K2 V1 V2 /\
    hmac_is H K2 V2 T /\ k = num_be T.
