(** * S_KeyPair: vocabulary for C51-C54, C71 and C80 *)
From Coq Require Import String.
From Verif Require Import M_Py M_Hash S_IO S_EC S_Address.

(** [t] is the WIF text of the 32-byte key [k]: Base58Check of 0x80, the key, 0x01. *)
Definition WIF (H : hashes) (k : bytes) (t : pystr) : Prop :=
  length k = 32%nat /\ B58Check H (x80 :: k ++ [x01]) t.

(** [a] is the NEO address of the public key (x, y): Base58Check of the version byte 23 and
    the RIPEMD-160 of the SHA-256 of the script "push 33 bytes, the compressed key, CHECKSIG". *)
Definition key_scripthash (H : hashes) (x y : Z) (h : bytes) : Prop :=
  exists enc, compressed_key x y enc /\ h = ripemd160 H (sha256 H (x21 :: enc ++ [xac])).
Definition key_address (H : hashes) (x y : Z) (a : pystr) : Prop :=
  exists h, key_scripthash H x y h /\ B58Check H (x17 :: h) a.

(** the prime of the curve secp256r1 *)
Definition p_r1 : Z := 2 ^ 256 - 2 ^ 224 + 2 ^ 192 + 2 ^ 96 - 1.
(** coordinates that the API takes for the point at infinity *)
Definition at_infinity (x y : Z) : Prop := same p_r1 x 0 /\ same p_r1 y 0.

(** the text given as str, or as bytes of its ASCII characters *)
Inductive text_arg : pyval -> pystr -> Prop :=
| text_str s : text_arg (VStr s) s
| text_bytes b : text_arg (VBytes b) (map b2z b).
(** the two kinds of byte strings *)
Inductive bytes_arg : pyval -> bytes -> Prop :=
| bytes_b b : bytes_arg (VBytes b) b
| bytes_ba b : bytes_arg (VBytearray b) b.

(** byte-wise exclusive or *)
Definition xored (a b c : bytes) : Prop :=
  length b = length a /\ length c = length a /\
  forall i, (i < length a)%nat -> b2z (nth i c x00) = Z.lxor (b2z (nth i a x00)) (b2z (nth i b x00)).
