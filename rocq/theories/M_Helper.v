(** * M_Helper: neocore/Cryptography/Helper.py and the hashing part of Crypto.py,
    Utils.py and the conversions of bin/cli.py.

    [H] stands for hashlib (M_Hash).  Helper.random_key is in M_RandomKey,
    argument and printing code of cli.main in M_Cli. *)
From Coq Require Import String.
From Verif Require Import M_Py M_Hash M_Base58 M_UInt.

(** Helper.py:17 *)
Definition ADDRESS_VERSION : Z := 23.

(** Helper.py:100-110 bin_dbl_sha256 (and Crypto.py:64-74 Hash256) *)
Definition bin_dbl_sha256 (H : hashes) (s : bytes) : bytes := sha256 H (sha256 H s).
(** Helper.py:28-42 double_sha256: the same digest as hexadecimal text *)
Definition double_sha256 (H : hashes) (ba : bytes) : pystr := hex (sha256 H (sha256 H ba)).
(** Helper.py:113-124 bin_hash160Bytes (and Crypto.py:52-61 Hash160Bytes) *)
Definition bin_hash160Bytes (H : hashes) (bts : bytes) : bytes := ripemd160 H (sha256 H bts).
(** Helper.py:127-138 bin_hash160 (and Crypto.py:40-49 Hash160) *)
Definition bin_hash160 (H : hashes) (bts : bytes) : pystr := hex (ripemd160 H (sha256 H bts)).

(** Helper.py:45-55 pubkey_to_redeem; pubkey is hexadecimal text as bytes *)
Definition pubkey_to_redeem (pubkey : bytes) : res bytes :=
  unhexlify (VBytes (bstr "21" ++ pubkey ++ bstr "ac")).
(** Helper.py:58-68 redeem_to_scripthash *)
Definition redeem_to_scripthash (H : hashes) (redeem : bytes) : bytes := bin_hash160Bytes H redeem.
(** Helper.py:71-84 scripthash_to_address *)
Definition scripthash_to_address (H : hashes) (scripthash : bytes) : pystr :=
  let sb := z2b ADDRESS_VERSION :: scripthash in
  let c256 := firstn 4 (bin_dbl_sha256 H sb) in
  let outb := sb ++ c256 in
  ascii_decode (b58encode outb).
(** Helper.py:87-97 pubkey_to_pubhash *)
Definition pubkey_to_pubhash (H : hashes) (pubkey : bytes) : res bytes :=
  do r <- pubkey_to_redeem pubkey; Ok (redeem_to_scripthash H r).

(** Helper.py:141-171 base256_encode *)
Definition base256_encode (n minwidth : Z) : res bytes :=
  do b <- (if n >? 0 then
             let arr := divmod_digits 256 n in
             Ok (map z2b (rev arr))
           else if n =? 0 then Ok [x00]
           else Raise ValueError);
  let b := if (minwidth >? 0) && (zlen b <? minwidth)
           then repeat x00 (Z.to_nat (minwidth - zlen b)) ++ b
           else b in
  Ok (rev b).

(** Helper.py:174-191 xor_bytes: res.append(a[i] ^ b[i]) for i in range(len(a)) *)
Fixpoint xor_loop (a b : bytes) : bytes :=
  match a, b with
  | x :: a', y :: b' => z2b (Z.lxor (b2z x) (b2z y)) :: xor_loop a' b'
  | _, _ => []
  end.
Definition xor_bytes (a b : pyval) : res bytes :=
  match a, b with
  | VBytes a, VBytes b => if zlen a =? zlen b then Ok (xor_loop a b) else Raise AssertionError
  | _, _ => Raise AssertionError
  end.

(** Crypto.py:39-49 Hash160, :51-61 Hash160Bytes, :63-74 Hash256 (static methods) *)
Definition Crypto_Hash160 := bin_hash160.
Definition Crypto_Hash160Bytes := bin_hash160Bytes.
Definition Crypto_Hash256 := bin_dbl_sha256.
(** Crypto.py:176-197, the methods of Crypto.Default() with the same names: Hash160 forwards to
    Hash160Bytes *)
Definition CryptoInstance_Hash160 (H : hashes) (message : bytes) : bytes := Crypto_Hash160Bytes H message.
Definition CryptoInstance_Hash256 (H : hashes) (message : bytes) : bytes := Crypto_Hash256 H message.

(** Crypto.py:77-90 ToScriptHash.  hashlib accepts bytes and bytearray and raises
    TypeError for a str; the digest is turned into hexadecimal and back (:90). *)
Definition ToScriptHash (H : hashes) (data : pyval) (unhex : bool) : res uint :=
  do n <- py_len data;
  do d <- (if (n >? 1) && unhex then unhexlify data
           else match data with VBytes b | VBytearray b => Ok b | _ => Raise TypeError end);
  do h <- utf8_encode (bin_hash160 H d);
  do s <- unhexlify (VBytes h);
  new_UInt160 (VBytes s).

(** Crypto.py:92-103 ToAddress *)
Definition ToAddress (H : hashes) (script_hash : uint) : pystr :=
  scripthash_to_address H (u_data script_hash).

(** Utils.py:4-16 isValidPublicAddress.  The body of the try raises only ValueErrors
    for text, anything else would propagate. *)
Definition isValidPublicAddress (H : hashes) (rs : bool) (address : pystr) : res bool :=
  if (zlen address =? 34) && (nth 0 address 0 =? 65) then
    match (do b <- utf8_encode address; b58decode_check H rs (VBytes b)) with
    | Ok _ => Ok true
    | Raise e => if is_ValueError e then Ok false else Raise e
    end
  else Ok false.

(** bin/cli.py:24-38 address_to_scripthash.  data[0] is an int in Python 3, so
    isinstance(data[0], bytes) is False and is_correct_signature is b'\x17', which is
    true: the branch at :30-31 is never taken.  data[0] itself raises IndexError for
    empty data. *)
Definition cli_address_to_scripthash (H : hashes) (rs : bool) (address : pystr) : res bytes :=
  do data <- b58decode rs (VStr address);
  match data with
  | [] => Raise IndexError
  | _ =>
      if list_eq_dec Byte.byte_eq_dec (last_n 4 data) (firstn 4 (sha256 H (sha256 H (drop_last 4 data))))
      then Ok (skipn 1 (drop_last 4 data))
      else Raise ConversionError
  end.

(** bin/cli.py:41-51 scripthash_to_address: any exception becomes ConversionError.
    What it prints is in M_Cli. *)
Definition cli_scripthash_to_address (H : hashes) (scripthash : pystr) : res pystr :=
  let body :=
    do s <- (if list_eq_dec Z.eq_dec (firstn 2 scripthash) (str "0x") then Ok scripthash
             else do b <- unhexlify (VStr scripthash); Ok (str "0x" ++ hex (rev b)));
    do u <- UInt160_ParseString s;
    Ok (ToAddress H u) in
  match body with Ok a => Ok a | Raise _ => Raise ConversionError end.
