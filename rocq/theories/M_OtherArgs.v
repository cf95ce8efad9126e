(** * M_OtherArgs: KeyPair.py, Crypto.py and Utils.py with arguments of other types

    M_KeyPair, M_Crypto and M_Helper take the pass phrase and the address as texts and the signature and
    the public key as bytes.  Here they may be any other value; each function is the one cited there with
    the type of that argument examined where the code first uses it. *)
From Coq Require Import String.
From Verif Require Import M_Py M_Hash M_Base58 M_UInt M_Helper M_ECCurve M_KeyPair M_Crypto.

(** unicodedata.normalize('NFC', passphrase): a TypeError for anything but a text *)
Definition normalize_any (L : keylib) (v : pyval) : res pystr :=
  match v with VStr s => Ok (nfc L s) | _ => Raise TypeError end.

(** KeyPair.py:189-233 ExportNEP2: len(passphrase) at :199, unicodedata.normalize at :208 *)
Definition ExportNEP2_any (H : hashes) (L : keylib) (kp : keypair) (passphrase : pyval) : res pystr :=
  do n <- py_len passphrase;
  if n <? 2 then Raise ValueError
  else
    do address <- GetAddress H kp;
    do ah <- address_hash H address;
    do normalized <- normalize_any L passphrase;
    do pwd_normalized <- utf8_encode normalized;
    let derived := scrypt_hash L pwd_normalized ah in
    do xor_ed <- xor_bytes (VBytes (kp_PrivateKey kp)) (VBytes (firstn 32 derived));
    do encrypted <- aes_encrypt L (skipn 32 derived) xor_ed;
    Ok (ascii_decode (b58encode_check H (NEP_HEADER ++ NEP_FLAG ++ ah ++ encrypted))).

(** KeyPair.py:108-157 PrivateKeyFromNEP2: the pass phrase is looked at (:133) after the key has been decoded *)
Definition PrivateKeyFromNEP2_any (H : hashes) (L : keylib) (rs : bool) (nep2_key passphrase : pyval) : res bytes :=
  if negb (truthy nep2_key) then do _ <- py_len nep2_key; Raise ValueError
  else
    do n <- py_len nep2_key;
    if negb (n =? 58) then Raise ValueError
    else
      do decoded_key <- match b58decode_check H rs nep2_key with Ok b => Ok b | Raise _ => Raise ValueError end;
      let ah := slice 3 7 decoded_key in
      do normalized <- normalize_any L passphrase;
      do pwd_normalized <- utf8_encode normalized;
      let derived := scrypt_hash L pwd_normalized ah in
      do decrypted <- aes_decrypt L (skipn 32 derived) (last_n 32 decoded_key);
      do private_key <- xor_bytes (VBytes decrypted) (VBytes (firstn 32 derived));
      do kp_new <- new_KeyPair H L (VBytes private_key);
      do kp_new_address <- GetAddress H kp_new;
      do kp_new_address_hash <- address_hash H kp_new_address;
      if list_eq_dec Byte.byte_eq_dec kp_new_address_hash ah then Ok private_key else Raise ValueError.

(** Utils.py:4-16 isValidPublicAddress: address[0] of bytes is a number, which is not equal to 'A'
    (:8; for an empty one the length has already decided) *)
Definition isValidPublicAddress_any (H : hashes) (rs : bool) (address : pyval) : res bool :=
  match address with
  | VStr s => isValidPublicAddress H rs s
  | v => do n <- py_len v; Ok false
  end.

(** Crypto.py:129-171 VerifySignature.  The key: an ECPoint or another value.  bitcoin.decompress refuses a
    text of 33 characters with a plain Exception (get_pubkey_format compares the first character with the
    numbers 2 and 3); VerifyingKey.from_string and verify raise for a key or a signature that is not
    bytes, inside the try (:163-169). *)
Inductive any_key := AKPoint (P : point) | AKVal (v : pyval).
Definition wVerifySignature_any (S : siglib) (message signature : pyval) (public_key : any_key) (unhex : bool) : W bool := fun w =>
  (do key <- match public_key with
             | AKPoint P =>
                 do pubkey_x <- int_to_bytes BE false 32 (fst P);
                 do pubkey_y <- int_to_bytes BE false 32 (snd P);
                 Ok (VBytes (pubkey_x ++ pubkey_y))
             | AKVal v => Ok v
             end;
   do message <- (if unhex then match unhexlify message with Ok m => Ok (VBytes m) | Raise _ => Ok message end
                  else match message with VStr s => do b <- utf8_encode s; Ok (VBytes b) | v => Ok v end);
   do n <- py_len key;
   do key <- (if n =? 33 then
                match key with
                | VBytes b | VBytearray b => do k <- bitcoin_decompress (w_curve w) b; Ok (VBytes (skipn 1 k))
                | _ => Raise PlainException
                end
              else Ok key);
   match (do k <- as_bytes key; do m <- as_bytes message; do s <- as_bytes signature; nist_verify S k s m) with
   | Ok res => Ok res
   | Raise _ => Ok false
   end, w).
