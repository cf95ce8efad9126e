(** * M_HelperArgs: Helper.py and the hashes of Crypto.py with arguments of other types

    M_Helper takes the messages, keys and script hashes of these functions as bytes and the numbers as
    ints.  Here they may be any other value; each function is the one cited there with the type of that
    argument examined where the code first uses it. *)
From Coq Require Import String Floats.SpecFloat.
From Verif Require Import M_Py M_Float M_Hash M_Base58 M_UInt M_Helper M_Fixed8Float.

(** hashlib.sha256(x): bytes or a bytearray; a text and everything else raises TypeError *)
Definition buffer (v : pyval) : res bytes := match v with VBytes b | VBytearray b => Ok b | _ => Raise TypeError end.
Definition sha256_any (H : hashes) (v : pyval) : res bytes := do b <- buffer v; Ok (sha256 H b).

(** Helper.py:28-42 double_sha256 *)
Definition double_sha256_any (H : hashes) (ba : pyval) : res pystr := do d1 <- sha256_any H ba; Ok (hex (sha256 H d1)).
(** Helper.py:100-110 bin_dbl_sha256 (and Crypto.py:63-74 Hash256, :194-197 of Crypto.Default()) *)
Definition bin_dbl_sha256_any (H : hashes) (s : pyval) : res bytes := do d1 <- sha256_any H s; Ok (sha256 H d1).
(** Helper.py:113-124 bin_hash160Bytes (and Crypto.py:51-61 Hash160Bytes, :189-192 Hash160 of Crypto.Default()) *)
Definition bin_hash160Bytes_any (H : hashes) (bts : pyval) : res bytes := do intermed <- sha256_any H bts; Ok (ripemd160 H intermed).
(** Helper.py:127-138 bin_hash160 (and Crypto.py:39-49 Hash160) *)
Definition bin_hash160_any (H : hashes) (string : pyval) : res pystr := do intermed <- sha256_any H string; Ok (hex (ripemd160 H intermed)).
(** Helper.py:58-68 redeem_to_scripthash *)
Definition redeem_to_scripthash_any (H : hashes) (redeem : pyval) : res bytes := bin_hash160Bytes_any H redeem.
(** Helper.py:45-55 pubkey_to_redeem: b'21' + pubkey raises TypeError unless pubkey is bytes-like *)
Definition pubkey_to_redeem_any (pubkey : pyval) : res bytes :=
  do k <- buffer pubkey; unhexlify (VBytes (bstr "21" ++ k ++ bstr "ac")).
(** Helper.py:87-97 pubkey_to_pubhash *)
Definition pubkey_to_pubhash_any (H : hashes) (pubkey : pyval) : res bytes :=
  do r <- pubkey_to_redeem_any pubkey; redeem_to_scripthash_any H (VBytes r).
(** Helper.py:71-84 scripthash_to_address: bytearray([23]) + scripthash *)
Definition scripthash_to_address_any (H : hashes) (scripthash : pyval) : res pystr :=
  do sh <- buffer scripthash;
  let sb := z2b ADDRESS_VERSION :: sh in
  do d <- bin_dbl_sha256_any H (VBytearray sb);
  Ok (ascii_decode (b58encode (sb ++ firstn 4 d))).

(** Helper.py:141-171 base256_encode: n and minwidth *)
Inductive anynum := AVal (v : pyval) | AFlt (f : pyfloat).
(** Helper.py:164-166: minwidth > 0 raises TypeError for what is not a number; the padding
    (minwidth - len(b)) * b'\x00' does when the difference is a float or a BigInteger *)
Definition pad_any (b : bytes) (minwidth : anynum) : res bytes :=
  match minwidth with
  | AVal (VInt w) => Ok (if (w >? 0) && (zlen b <? w) then repeat x00 (Z.to_nat (w - zlen b)) ++ b else b)
  | AVal (VBool w) => let w := z_of_bool w in Ok (if (w >? 0) && (zlen b <? w) then repeat x00 (Z.to_nat (w - zlen b)) ++ b else b)
  | AVal (VBig w) => if (w >? 0) && (zlen b <? w) then Raise TypeError else Ok b
  | AFlt w => if SFltb (S754_zero false) w && match cmp_int_float (zlen b) w with Some Lt => true | _ => false end then Raise TypeError else Ok b
  | AVal _ => Raise TypeError
  end.
(** 256.0, what divmod(n, 256) makes of 256 for a float n *)
Definition f256 : pyfloat := S754_finite false 4503599627370496 (-44).
(** Helper.py:154-156: while n: n, rem = divmod(n, 256).  None: not finished within the given number of rounds. *)
Fixpoint float_digits (rounds : nat) (n : pyfloat) : option (list pyfloat) :=
  match rounds with
  | O => None
  | S k => if ftruthy n then match float_digits k (ffloordiv n f256) with Some r => Some (frem n f256 :: r) | None => None end else Some []
  end.
(** bytearray(list): its elements must be ints *)
Definition bytearray_floats (l : list pyfloat) : res bytes := match l with [] => Ok [] | _ => Raise TypeError end.
(** The result, or None if the loop has not ended within the given number of rounds.  BigIntegers behave like ints:
    divmod gives plain ints. *)
Definition base256_encode_any (rounds : nat) (n minwidth : anynum) : option (res bytes) :=
  match (match n with
         | AVal v =>
             match as_int v with
             | Some n => if n >? 0 then Some (Ok (map z2b (rev (divmod_digits 256 n))))
                         else if n =? 0 then Some (Ok [x00]) else Some (Raise ValueError)
             | None => Some (Raise TypeError)
             end
         | AFlt f =>
             if SFltb (S754_zero false) f then
               match float_digits rounds f with Some arr => Some (bytearray_floats (rev arr)) | None => None end
             else if SFeqb f (S754_zero false) then Some (Ok [x00]) else Some (Raise ValueError)
         end) with
  | None => None
  | Some r => Some (do b <- r; do b <- pad_any b minwidth; Ok (rev b))
  end.

(** UInt160.py:8-16 and UInt256.py:8-16 ParseString of a value of any type: value[0:2] raises TypeError for
    None and numbers; the first two bytes of bytes are not equal to the text '0x'; bytearray.fromhex raises
    TypeError for bytes. *)
Definition ParseString_any (parse : pystr -> res uint) (digits : Z) (value : pyval) : res uint :=
  match value with
  | VStr s => parse s
  | VBytes b | VBytearray b => if negb (zlen b =? digits) then Raise PlainException else Raise TypeError
  | _ => Raise TypeError
  end.
Definition UInt160_ParseString_any := ParseString_any UInt160_ParseString 40.
Definition UInt256_ParseString_any := ParseString_any UInt256_ParseString 64.
