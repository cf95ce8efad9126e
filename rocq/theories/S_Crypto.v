(** * S_Crypto: vocabulary for C74, C80 and C81 *)
From Coq Require Import String.
From Verif Require Import M_Py M_Hash M_Base58 M_KeyPair M_Crypto S_IO S_IO2 S_EC S_Address S_KeyPair.

(** NIST P-256 (SEC 2, secp256r1): the prime, the coefficients, the base point and its order. *)
Definition is_secp256r1 (c : curve_params) : Prop :=
  cp_p c = 2 ^ 256 - 2 ^ 224 + 2 ^ 192 + 2 ^ 96 - 1 /\ cp_a c = cp_p c - 3 /\
  cp_b c = 0x5ac635d8aa3a93e7b3ebbd55769886bc651d06b0cc53b0f63bce3c3e27d2604b /\
  cp_gx c = 0x6b17d1f2e12c4247f8bce6e563a440f277037d812deb33a0f4a13945d898c296 /\
  cp_gy c = 0x4fe342e2fe1a7f9b8ee7eb4a7c0f9e162bce33576b315ececbb6406837bf51f5 /\
  cp_n c = 2 ^ 256 - 2 ^ 224 + 2 ^ 192 - 89188191075325690597107910205041859247.
(** Bitcoin's curve secp256k1 *)
Definition is_secp256k1 (c : curve_params) : Prop :=
  cp_p c = 2 ^ 256 - 2 ^ 32 - 977 /\ cp_a c = 0 /\ cp_b c = 7.

(** [signed_bytes v unhex m]: the message argument [v] with the flag [unhex] stands for the
    bytes [m]: hexadecimal bytes or text are decoded when unhex is set, and bytes that are not
    hexadecimal stand for themselves; without unhex, bytes stand for themselves and text for
    its UTF-8 encoding. *)
Inductive signed_bytes : pyval -> bool -> bytes -> Prop :=
| sb_hex v t m : bytes_arg v t -> hex_denotes (map b2z t) m -> signed_bytes v true m
| sb_hex_text t m : hex_denotes t m -> signed_bytes (VStr t) true m
| sb_not_hex v t : bytes_arg v t -> ~ hex_text (map b2z t) -> signed_bytes v true t
| sb_raw v t : bytes_arg v t -> signed_bytes v false t
| sb_text t m : utf8_encode t = Ok m -> signed_bytes (VStr t) false m.

(** The verdict of the ecdsa package on a 64-byte key: an exception counts as a rejection. *)
Definition verdict (S : siglib) (key signature m : bytes) (b : bool) : Prop :=
  nist_verify S key signature m = Ok b \/ ((exists e, nist_verify S key signature m = Raise e) /\ b = false).
(** The ecdsa package accepts signatures only under keys that are points of P-256. *)
Definition rejects_foreign_keys (S : siglib) : Prop := forall key signature m,
  nist_verify S key signature m = Ok true ->
  exists c x y xb yb, is_secp256r1 c /\ be32 x xb /\ be32 y yb /\ key = xb ++ yb /\ equation (cp_p c) (cp_a c) (cp_b c) x y.

(** The calls that select P-256: making a KeyPair (even if it fails), anything that goes
    through Crypto.Default(), KeyPair.Export, and an import of an encrypted key that gets as
    far as a candidate key, which needs a well-formed text of 58 characters. *)
Inductive selects (H : hashes) (L : keylib) (rs : bool) : call -> Prop :=
| sel_keypair v : selects H L rs (CallKeyPair v)
| sel_export kp : selects H L rs (CallExport kp)
| sel_default : selects H L rs CallDefault
| sel_sign m k : selects H L rs (CallDefaultSign m k)
| sel_verify m s k u : selects H L rs (CallDefaultVerifySignature m s k u)
| sel_import v pass payload pwd dec key : py_len v = Ok 58 -> b58decode_check H rs v = Ok payload ->
    utf8_encode (nfc L pass) = Ok pwd ->
    let derived := scrypt_hash L pwd (slice 3 7 payload) in
    aes_decrypt L (skipn 32 derived) (last_n 32 payload) = Ok dec -> xored dec (firstn 32 derived) key ->
    selects H L rs (CallPrivateKeyFromNEP2 v pass).
