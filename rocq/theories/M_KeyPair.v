(** * M_KeyPair: neocore/KeyPair.py

    The third-party functions it calls are a record of oracles: bitcoin.privkey_to_pubkey
    (for the curve installed by setup_curve), scrypt.hash, AES in ECB mode and
    unicodedata.normalize.  Nothing is assumed about them but what [keylib_ok] says.
    SHA-256 and RIPEMD-160 are the record [H] (M_Hash), [rs] the base58 release (M_Base58).
    `len(wif) is not 52`, `data[0] is not 0x80` etc. compare small integers, which CPython
    shares, so `is not` is `!=`. *)
From Coq Require Import String.
From Verif Require Import M_Py M_Hash M_Base58 M_UInt M_Helper M_ECCurve.

(** the arguments of bitcoin.change_curve(p, n, a, b, gx, gy) *)
Record curve_params := mkParams { cp_p : Z; cp_n : Z; cp_a : Z; cp_b : Z; cp_gx : Z; cp_gy : Z }.
(** KeyPair.py:29-40 setup_curve *)
Definition setup_curve : curve_params := mkParams
  115792089210356248762697446949407573530086143415290314195533631308867097853951
  115792089210356248762697446949407573529996955224135760342422259061068512044369
  115792089210356248762697446949407573530086143415290314195533631308867097853948
  41058363725152142129326129780047268409114441015993725554835256314039467401291
  48439561293906451759052585252797914202762949526041747995844080717082404635286
  36134250956749795798585127919587881956611106672985015071877198253568414405109.
(** Crypto.py:14-25 SetupSignatureCurve *)
Definition SetupSignatureCurve : curve_params := mkParams
  0xFFFFFFFF00000001000000000000000000000000FFFFFFFFFFFFFFFFFFFFFFFF
  0xFFFFFFFF00000000FFFFFFFFFFFFFFFFBCE6FAADA7179E84F3B9CAC2FC632551
  0xFFFFFFFF00000001000000000000000000000000FFFFFFFFFFFFFFFFFFFFFFFC
  0x5AC635D8AA3A93E7B3EBBD55769886BC651D06B0CC53B0F63BCE3C3E27D2604B
  0x6B17D1F2E12C4247F8BCE6E563A440F277037D812DEB33A0F4A13945D898C296
  0x4FE342E2FE1A7F9B8EE7EB4A7C0F9E162BCE33576B315ECECBB6406837BF51F5.

Record keylib := mkKeylib {
  (** bitcoin.privkey_to_pubkey(priv) for 32 bytes under the given curve: 0x04, x, y *)
  privkey_to_pubkey : curve_params -> bytes -> res bytes;
  (** scrypt.hash(password, salt, N=16384, r=8, p=8, buflen=64) *)
  scrypt_hash : bytes -> bytes -> bytes;
  (** AES.new(key, AES.MODE_ECB).encrypt / .decrypt *)
  aes_encrypt : bytes -> bytes -> res bytes;
  aes_decrypt : bytes -> bytes -> res bytes;
  (** unicodedata.normalize('NFC', s) *)
  nfc : pystr -> pystr
}.
(** What the theorems assume of the libraries: the lengths of their results, that data whose
    length is not a multiple of the AES block is refused, and that decryption with the same
    key undoes encryption. *)
Definition keylib_ok (L : keylib) : Prop :=
  (forall c k b, privkey_to_pubkey L c k = Ok b -> length b = 65%nat) /\
  (forall p s, length (scrypt_hash L p s) = 64%nat) /\
  (forall k d, length k = 32%nat -> zlen d mod 16 = 0 ->
     exists e, aes_encrypt L k d = Ok e /\ length e = length d /\ aes_decrypt L k e = Ok d) /\
  (forall k d, length k = 32%nat -> zlen d mod 16 = 0 -> exists e, aes_decrypt L k d = Ok e /\ length e = length d) /\
  (forall k d, length k = 32%nat -> zlen d mod 16 <> 0 -> aes_decrypt L k d = Raise ValueError).

(** KeyPair.py:22-27 KeyPair: the attributes *)
Record keypair := mkKeyPair { kp_PrivateKey : bytes; kp_PublicKey : point; kp_PublicKeyHash : uint }.

(** bitcoin.decode_pubkey(pub, 'bin'): the two 32-byte big-endian numbers after the first byte *)
Definition decode_pubkey_bin (pub : bytes) : point :=
  (bytes2z BE (slice 1 33 pub), bytes2z BE (slice 33 65 pub)).

(** the priv_key argument as the bytes that slicing and bytearray() see *)
Definition as_bytes (v : pyval) : res bytes :=
  match v with VBytes b | VBytearray b => Ok b | _ => Raise TypeError end.

(** KeyPair.py:42-78 __init__.  The uncompressed key is never empty, so the branch at :70 is
    always taken. *)
Definition new_KeyPair (H : hashes) (L : keylib) (priv_key : pyval) : res keypair :=
  do length <- py_len priv_key;
  if negb (length =? 32) && negb (length =? 96) && negb (length =? 104) then Raise ValueError
  else
    do pk <- as_bytes priv_key;
    let PrivateKey := last_n 32 pk in
    do pub <- (if length =? 32 then
                 match privkey_to_pubkey L setup_curve pk with Ok b => Ok b | Raise _ => Raise PlainException end
               else
                 let skip := Z.to_nat (length - 96) in
                 Ok (x04 :: slice skip (skip + 64) pk));
    let PublicKey := decode_pubkey_bin pub in
    do enc <- encode_point secp256r1 PublicKey true LE;
    do h <- ToScriptHash H (VBytes enc) true;
    Ok (mkKeyPair PrivateKey PublicKey h).

(** KeyPair.py:80-106 PrivateKeyFromWIF *)
Definition PrivateKeyFromWIF (H : hashes) (rs : bool) (wif : pyval) : res bytes :=
  do n <- py_len wif;       (* for None the message of the ValueError evaluates len(None) *)
  if negb (n =? 52) then Raise ValueError
  else
    do data <- b58decode rs wif;
    if negb (zlen data =? 38) || negb (b2z (nth 0 data x00) =? 128) || negb (b2z (nth 33 data x00) =? 1) then Raise ValueError
    else
      let checksum := firstn 4 (bin_dbl_sha256 H (firstn 34 data)) in
      if list_eq_dec Byte.byte_eq_dec checksum (skipn 34 data) then Ok (slice 1 33 data)
      else Raise ValueError.

(** KeyPair.py:159-169 GetAddress *)
Definition GetAddress (H : hashes) (kp : keypair) : res pystr :=
  do enc <- encode_point secp256r1 (kp_PublicKey kp) true LE;
  let script := bstr "21" ++ enc ++ bstr "ac" in
  do script_hash <- ToScriptHash H (VBytes script) true;
  Ok (ToAddress H script_hash).

(** data[i] = b and data[i:j] = v on a bytearray (indices in range) *)
Definition set_at (i : nat) (b : byte) (l : bytes) : bytes := firstn i l ++ b :: skipn (S i) l.
Definition set_slice (i j : nat) (v l : bytes) : bytes := firstn i l ++ v ++ skipn j l.

(** KeyPair.py:171-187 Export *)
Definition Export (H : hashes) (kp : keypair) : pystr :=
  let data := repeat x00 38 in
  let data := set_at 0 x80 data in
  let data := set_slice 1 33 (firstn 32 (kp_PrivateKey kp)) data in
  let data := set_at 33 x01 data in
  let checksum := bin_dbl_sha256 H (firstn 34 data) in
  let data := set_slice 34 38 (firstn 4 checksum) data in
  ascii_decode (b58encode data).

(** KeyPair.py:18-19 *)
Definition NEP_HEADER : bytes := [x01; x42].
Definition NEP_FLAG : bytes := [xe0].

(** KeyPair.py:151-153 and :203-205: the first four bytes of the double SHA-256 of the address *)
Definition address_hash (H : hashes) (address : pystr) : res bytes :=
  do b <- utf8_encode address; Ok (firstn 4 (sha256 H (sha256 H b))).

(** KeyPair.py:189-233 ExportNEP2, for a str passphrase *)
Definition ExportNEP2 (H : hashes) (L : keylib) (kp : keypair) (passphrase : pystr) : res pystr :=
  if zlen passphrase <? 2 then Raise ValueError
  else
    do address <- GetAddress H kp;
    do ah <- address_hash H address;
    do pwd_normalized <- utf8_encode (nfc L passphrase);
    let derived := scrypt_hash L pwd_normalized ah in
    let derived1 := firstn 32 derived in
    let derived2 := skipn 32 derived in
    do xor_ed <- xor_bytes (VBytes (kp_PrivateKey kp)) (VBytes derived1);
    do encrypted <- aes_encrypt L derived2 xor_ed;
    let assembled := NEP_HEADER ++ NEP_FLAG ++ ah ++ encrypted in
    Ok (ascii_decode (b58encode_check H assembled)).

(** KeyPair.py:108-157 PrivateKeyFromNEP2, for a str passphrase *)
Definition PrivateKeyFromNEP2 (H : hashes) (L : keylib) (rs : bool) (nep2_key : pyval) (passphrase : pystr) : res bytes :=
  if negb (truthy nep2_key) then do _ <- py_len nep2_key; Raise ValueError
  else
    do n <- py_len nep2_key;
    if negb (n =? 58) then Raise ValueError
    else
      let ADDRESS_HASH_OFFSET := (length NEP_FLAG + length NEP_HEADER)%nat in
      do decoded_key <- match b58decode_check H rs nep2_key with Ok b => Ok b | Raise _ => Raise ValueError end;
      let ah := slice ADDRESS_HASH_OFFSET (ADDRESS_HASH_OFFSET + 4) decoded_key in
      let encrypted := last_n 32 decoded_key in
      do pwd_normalized <- utf8_encode (nfc L passphrase);
      let derived := scrypt_hash L pwd_normalized ah in
      let derived1 := firstn 32 derived in
      let derived2 := skipn 32 derived in
      do decrypted <- aes_decrypt L derived2 encrypted;
      do private_key <- xor_bytes (VBytes decrypted) (VBytes derived1);
      do kp_new <- new_KeyPair H L (VBytes private_key);
      do kp_new_address <- GetAddress H kp_new;
      do kp_new_address_hash <- address_hash H kp_new_address;
      if list_eq_dec Byte.byte_eq_dec kp_new_address_hash ah then Ok private_key else Raise ValueError.
