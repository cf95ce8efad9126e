(** * M_Version: the settable version byte of addresses

    Helper.ADDRESS_VERSION (Helper.py:17) is a module attribute that programs may assign, as
    tests/test_cryptography.py:60-68 does.  It is read in one place, Helper.py:81, each time an
    address is made.  The definitions below repeat those of M_Helper and M_KeyPair that reach
    that line, with the current value of the attribute (an int) as the argument [v];
    [C96_default] shows that they are the old ones when [v] is 23. *)
From Coq Require Import String.
From Verif Require Import M_Py M_Hash M_Base58 M_UInt M_Helper M_ECCurve M_KeyPair.

(** bytearray([v]): ValueError unless 0 <= v < 256 *)
Definition bytearray1 (v : Z) : res bytes := if (0 <=? v) && (v <? 256) then Ok [z2b v] else Raise ValueError.
(** Helper.py:71-84 scripthash_to_address *)
Definition scripthash_to_address_v (H : hashes) (v : Z) (scripthash : bytes) : res pystr :=
  do b <- bytearray1 v;
  let sb := b ++ scripthash in
  let c256 := firstn 4 (bin_dbl_sha256 H sb) in
  let outb := sb ++ c256 in
  Ok (ascii_decode (b58encode outb)).
(** Crypto.py:92-103 ToAddress *)
Definition ToAddress_v (H : hashes) (v : Z) (script_hash : uint) : res pystr :=
  scripthash_to_address_v H v (u_data script_hash).
(** KeyPair.py:159-169 GetAddress *)
Definition GetAddress_v (H : hashes) (v : Z) (kp : keypair) : res pystr :=
  do enc <- encode_point secp256r1 (kp_PublicKey kp) true LE;
  let script := bstr "21" ++ enc ++ bstr "ac" in
  do script_hash <- ToScriptHash H (VBytes script) true;
  ToAddress_v H v script_hash.
(** bin/cli.py:41-51 scripthash_to_address *)
Definition cli_scripthash_to_address_v (H : hashes) (v : Z) (scripthash : pystr) : res pystr :=
  let body :=
    do s <- (if list_eq_dec Z.eq_dec (firstn 2 scripthash) (str "0x") then Ok scripthash
             else do b <- unhexlify (VStr scripthash); Ok (str "0x" ++ hex (rev b)));
    do u <- UInt160_ParseString s;
    ToAddress_v H v u in
  match body with Ok a => Ok a | Raise _ => Raise ConversionError end.
(** KeyPair.py:189-233 ExportNEP2, for a str passphrase *)
Definition ExportNEP2_v (H : hashes) (L : keylib) (v : Z) (kp : keypair) (passphrase : pystr) : res pystr :=
  if zlen passphrase <? 2 then Raise ValueError
  else
    do address <- GetAddress_v H v kp;
    do ah <- address_hash H address;
    do pwd_normalized <- utf8_encode (nfc L passphrase);
    let derived := scrypt_hash L pwd_normalized ah in
    let derived1 := firstn 32 derived in
    let derived2 := skipn 32 derived in
    do xor_ed <- xor_bytes (VBytes (kp_PrivateKey kp)) (VBytes derived1);
    do encrypted <- aes_encrypt L derived2 xor_ed;
    let assembled := NEP_HEADER ++ NEP_FLAG ++ ah ++ encrypted in
    Ok (ascii_decode (b58encode_check H assembled)).
(** KeyPair.py:108-157 PrivateKeyFromNEP2, for a str passphrase *)
Definition PrivateKeyFromNEP2_v (H : hashes) (L : keylib) (rs : bool) (v : Z) (nep2_key : pyval) (passphrase : pystr) : res bytes :=
  if negb (truthy nep2_key) then do _ <- py_len nep2_key; Raise ValueError
  else
    do n <- py_len nep2_key;
    if negb (n =? 58) then Raise ValueError
    else
      let ADDRESS_HASH_OFFSET := (length NEP_FLAG + length NEP_HEADER)%nat in
      do decoded_key <- match b58decode_check H rs nep2_key with Ok b => Ok b | Raise _ => Raise ValueError end;
      let ah := slice ADDRESS_HASH_OFFSET (ADDRESS_HASH_OFFSET + 4) decoded_key in
      let encrypted := last_n 32 decoded_key in
      do pwd_normalized <- utf8_encode (nfc L passphrase);
      let derived := scrypt_hash L pwd_normalized ah in
      let derived1 := firstn 32 derived in
      let derived2 := skipn 32 derived in
      do decrypted <- aes_decrypt L derived2 encrypted;
      do private_key <- xor_bytes (VBytes decrypted) (VBytes derived1);
      do kp_new <- new_KeyPair H L (VBytes private_key);
      do kp_new_address <- GetAddress_v H v kp_new;
      do kp_new_address_hash <- address_hash H kp_new_address;
      if list_eq_dec Byte.byte_eq_dec kp_new_address_hash ah then Ok private_key else Raise ValueError.
