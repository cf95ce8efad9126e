(** * T_Repo: the vectors of the project's own unit tests, evaluated in the model

    Not properties: a check that the model gives what /repo/tests expects of the code.  Tests of
    things outside the model (subprocesses, log messages, elliptic curve keys derived by the ecdsa
    and bitcoin packages, scrypt and AES) are left out; those that need SHA-256 on real data are in
    the examples of P_Address, P_KeyPair, P_Hash and P_Merkle. *)
From Coq Require Import String Floats.SpecFloat.
From Verif Require Import M_Py M_Float M_UInt M_BigInteger M_Writer M_Reader M_FloatIO M_Fixed8 M_FloatRepr M_Helper M_Base58 M_Hash M_KeyPair S_IO.

Definition rd {A} (m : io A) (data : bytes) : res A := fst (m (mkStream data 0)).
Definition wr {A} (m : io A) : res bytes := match m (mkStream [] 0) with (Ok _, s) => Ok (content s) | (Raise e, _) => Raise e end.
Definition fails {A} (r : res A) : bool := match r with Ok _ => false | Raise _ => true end.
(** the float a decimal literal stands for *)
Definition lit (s : string) : option pyfloat := float_of_text (str s).
Definition on_lit {A} (s : string) (f : pyfloat -> res A) : option (res A) := option_map f (lit s).

(** ** tests/test_io.py *)

(** test_io.py:52-100 BinaryReaderTestCase.test_various *)
Example reader_various :
  rd (ReadChar) [x41; x01; x02; x03; x04] = Ok (bstr "A") /\
  rd (ReadChar ;; ReadByte) [x41; x01; x02; x03; x04] = Ok 1 /\
  rd (ReadChar ;; ReadByte ;; ReadByte_raw) [x41; x01; x02; x03; x04] = Ok [x02] /\
  rd (ReadChar ;; ReadByte ;; ReadByte_raw ;; ReadBool) [x41; x01; x02; x03; x04] = Ok true /\
  rd ReadByte [] = Ok 0 /\
  Some (rd (ReadFloat LE) (bstr "1234")) = option_map Ok (lit "1.6688933612840628e-07") /\
  Some (rd (ReadDouble LE) (bstr "12345678")) = option_map Ok (lit "6.821320051701325e-38") /\
  rd (ReadInt8 LE) (bstr "12") = Ok 49 /\ rd (ReadUInt8 LE) (bstr "12") = Ok 49 /\
  rd (ReadInt16 LE) (bstr "12") = Ok 12849 /\ rd (ReadUInt16 LE) (bstr "12") = Ok 12849 /\
  rd (ReadInt32 LE) (xff :: bstr "234") = Ok 875770623 /\ rd (ReadUInt32 LE) (xff :: bstr "234") = Ok 875770623 /\
  rd (ReadInt64 LE) (bstr "12345678") = Ok 4050765991979987505 /\ rd (ReadUInt64 LE) (bstr "12345678") = Ok 4050765991979987505 /\
  rd (ReadVarBytes maxsize) (xfd :: bstr "1234abc") = Ok (bstr "34abc") /\
  rd ReadString (x03 :: bstr "234") = Ok (bstr "234") /\
  rd (ReadVarString maxsize) (x03 :: bstr "123") = Ok (bstr "123") /\
  rd (ReadFixedString 2) (bstr "abc") = Ok (bstr "ab") /\
  (do u <- rd ReadUInt256 (bstr "123871987392873918723981723987189"); Ok (M_UInt.ToString u)) =
    Ok (str "3831373839333237313839333237383139333738323933373839313738333231") /\
  (do u <- rd ReadUInt160 (bstr "123871987392873918723981723987189"); Ok (M_UInt.ToString u)) =
    Ok (str "3237383139333738323933373839313738333231") /\
  (do v <- rd ReadFixed8 ([x01; x02; x03] ++ bstr "45678"); ToString v) = Ok (str "40507659919.768295") /\
  rd ReadHashes (x02 :: bstr "12345567898765434567890987") = Ok [str "3738393039383736353433343536373839383736353534333231"; str ""].
Proof. repeat split; vm_compute; reflexivity. Qed.
(** :102-109 test_varint, :130-134 test_readvarint_fail *)
Example reader_varint :
  rd (ReadVarInt maxsize) [] = Ok 0 /\ rd (ReadVarInt maxsize) (xfd :: bstr "12") = Ok 12849 /\
  rd (ReadVarInt maxsize) (xfe :: bstr "1234") = Ok 875770417 /\ rd (ReadVarInt maxsize) (xff :: bstr "12345678") = Ok 4050765991979987505 /\
  fails (rd (ReadVarInt 12848) (xfd :: bstr "1234")) = true.
Proof. repeat split; vm_compute; reflexivity. Qed.
(** :12-26 TestObject *)
Definition TestObject : klass := mkKlass (option Z) None
  (fun o => match o with Some z => WriteUInt32 z LE ;; iret tt | None => iraise StructError end)
  (fun _ => z <-- ReadUInt32 LE ; iret (Some z)).
(** :118-128 test_readserializable: the array is cut short where an item cannot be read *)
Example reader_serializable :
  rd (ReadSerializableArray TestObject maxsize) [x04; x01; x02; x03; x04] = Ok [Some 0x4030201] /\
  rd (ReadSerializableArray TestObject maxsize) [x04; x01; x02; x03] = Ok [].
Proof. repeat split; vm_compute; reflexivity. Qed.
(** :136-141 test_saferead *)
Example reader_saferead :
  rd (ReadBytes 10) (bstr "1234") = Ok (bstr "1234") /\ rd (SafeReadBytes 10) (bstr "1234") = Raise ValueError /\
  rd (SafeReadBytes 8) [x01; x02; x03; x04; x05; x06; x07; x08] = Ok [x01; x02; x03; x04; x05; x06; x07; x08].
Proof. repeat split; vm_compute; reflexivity. Qed.

(** :145-313 BinaryWriterTestCase.test_various *)
Example writer_various :
  swap32 123 = Ok 2063597568 /\ swap32 2063597568 = Ok 123 /\
  convert_to_uint160 123 = str "00000000000001111011" /\ convert_to_uint256 123 = str "00000000000000000000000001111011" /\
  wr (WriteByte (VBytes [x00])) = Ok [x00] /\ wr (WriteByte (VStr (str "1"))) = Ok (bstr "1") /\ wr (WriteByte (VInt 1)) = Ok [x01] /\
  wr (WriteChar (VBytes [x41])) = Ok (bstr "A") /\
  option_map (fun f => wr (WriteFloat (AFloat f) LE)) (lit "123.41") = Some (Ok ([xec; xd1; xf6] ++ bstr "B")) /\
  wr (WriteDouble (AInt 976) LE) = Ok ([x00; x00; x00; x00; x00; x80; x8e] ++ bstr "@") /\
  wr (WriteUInt8 167 LE) = Ok [xa7] /\ wr (WriteBool (VBool true)) = Ok [x01] /\ wr (WriteBool (VBool false)) = Ok [x00] /\
  wr (WriteInt8 17 LE) = Ok [x11] /\ wr (WriteInt16 12345 LE) = Ok (bstr "90") /\ wr (WriteUInt16 12345 LE) = Ok (bstr "90") /\
  wr (WriteUInt16 (32767 * 2) LE) = Ok [xfe; xff] /\ wr (WriteInt32 (32767 * 2 * 2) LE) = Ok [xfc; xff; x01; x00] /\
  wr (WriteUInt32 (32767 * 2 * 2) LE) = Ok [xfc; xff; x01; x00] /\
  wr (WriteInt64 (32767 * 2 * 2) LE) = Ok [xfc; xff; x01; x00; x00; x00; x00; x00] /\
  wr (WriteUInt64 (32767 * 2 * 2) LE) = Ok [xfc; xff; x01; x00; x00; x00; x00; x00] /\
  (do u <- new_UInt160 (VBytes (bstr "12345678901234567890")); wr (WriteUInt160 (Some u))) = Ok ([x12] ++ bstr "4Vx" ++ [x90; x12] ++ bstr "4Vx" ++ [x90]) /\
  fails (wr (WriteUInt160 None)) = true /\
  (do u <- new_UInt256 (VBytes (bstr "12345678901234567890123456789012")); wr (WriteUInt256 (Some u))) =
    Ok ([x12] ++ bstr "4Vx" ++ [x90; x12] ++ bstr "4Vx" ++ [x90; x12] ++ bstr "4Vx" ++ [x90; x12]) /\
  fails (wr (WriteUInt256 None)) = true /\
  wr (WriteVarInt (VStr (str "x")) LE) = Raise TypeError /\ fails (wr (WriteVarInt (VInt (-1)) LE)) = true /\
  wr (WriteVarInt (VInt 12) LE) = Ok [x0c] /\ wr (WriteVarInt (VInt 0xff) LE) = Ok [xfd; xff; x00] /\
  wr (WriteVarInt (VInt 0xffffff) LE) = Ok [xfe; xff; xff; xff; x00] /\
  wr (WriteVarInt (VInt 0xFFFFFFFFFF) LE) = Ok [xff; xff; xff; xff; xff; xff; x00; x00; x00] /\
  wr (WriteVarBytes (VBytes (bstr "123")) LE) = Ok (x03 :: bstr "123") /\
  wr (WriteFixedString (str "test") 10) = Ok (bstr "test" ++ [x00; x00; x00; x00; x00; x00]) /\
  wr (WriteSerializableArray TestObject None) = Ok [x00] /\
  wr (WriteHashes [VBytes (bstr "12"); VBytes (bstr "45")]) = Ok [x02; x12; x45] /\
  wr (WriteFixed8 100) = Ok (bstr "d" ++ [x00; x00; x00; x00; x00; x00; x00]) /\
  wr (WriteVarString (VStr (str "my_test_string"))) = Ok (x0e :: bstr "my_test_string") /\
  fails (wr (WriteFixedString (str "abc") 2)) = true.
Proof. repeat split; vm_compute; reflexivity. Qed.
(** :328-340 test_write_serializable_array *)
Example writer_serializable :
  (do b <- wr (WriteSerializableArray TestObject (Some [Some 1; Some 2])); rd (ReadSerializableArray TestObject maxsize) b) = Ok [Some 1; Some 2].
Proof. vm_compute. reflexivity. Qed.

(** ** tests/test_numbers.py *)

(** test_numbers.py:14-200 Fixed8TestCase *)
Example fixed8_tests :
  f8_add 100 300 = Ok 400 /\ f8_sub 100 300 = Ok (-200) /\ f8_mul 3 9 = Ok 27 /\ f8_truediv 27 3 = Ok 9 /\ f8_pow 2 3 = Ok 8 /\
  f8_mod 10 5 = Ok 0 /\ f8_mod 10 7 = Ok 3 /\ f8_neg 2 = Ok (-2) /\
  on_lit "2042.02556" FromDecimal_float = Some (Ok 204202556000) /\
  f8_eq FD 100000000 = true /\ f8_eq FD One = true /\ Satoshi = 1 /\ NegativeSatoshi = -1 /\ Zero = 0 /\ f8_Size 123 = 8 /\
  TryParse (PInt 0) false = Ok (Some 0) /\ TryParse (PText (str "foo")) false = Ok None /\ TryParse (PInt (-1)) true = Ok None /\
  on_lit "4.6" (fun f => do v <- FromDecimal_float f; Ceil v) = Some (FromDecimal_int 5) /\
  on_lit "4.00000001" (fun f => do v <- FromDecimal_float f; Ceil v) = Some (FromDecimal_int 5) /\
  on_lit "4.9999999999" (fun f => do v <- FromDecimal_float f; Floor v) = Some (FromDecimal_int 4) /\
  on_lit "4.2" (fun f => do v <- FromDecimal_float f; Floor v) = Some (FromDecimal_int 4) /\
  f8_iadd 1 2 = f8_add 1 2 /\ f8_itruediv 1 2 = Ok 0 /\ f8_imod 1 2 = Ok 1 /\
  f8_lt 1 2 = true /\ f8_gt 2 1 = true /\ f8_le 1 2 = true /\ f8_ge 2 1 = true /\ f8_ge 2 2 = true /\
  ToInt One = Ok 1 /\ M_FloatRepr.ToString One = Ok (str "1.0") /\
  on_lit "1.0" (fun f => do v <- FromDecimal_float f; ToNeoJsonString v) = Some (Ok (str "1")) /\
  on_lit "1.10" (fun f => do v <- FromDecimal_float f; ToNeoJsonString v) = Some (Ok (str "1.1")) /\
  (do v <- FromDecimal_int 10; ToNeoJsonString v) = Ok (str "10") /\ (do v <- FromDecimal_int 100; ToNeoJsonString v) = Ok (str "100") /\
  on_lit "2609.997813" (fun f => do v <- FromDecimal_float f; ToNeoJsonString v) = Some (Ok (str "2609.997813")).
Proof. repeat split; vm_compute; reflexivity. Qed.
(** :203-320 BigIntegerTestCase *)
Example biginteger_tests :
  big_add 10 20 = big 30 /\ big_sub 5505505505505505050505 5505505505505505000000 = big 50505 /\
  big_mul 55055055055055 55055055055 = big 3031059087112109081053025 /\ big_truediv 55055055055055 55055055 = big 1000000 /\
  big_truediv 41483775933600000000 414937759336 = big 99975899 /\ big_floordiv 41483775933600000000 414937759336 = big 99975899 /\
  on_lit "5505.001" (fun f => do a <- py_int f; match lit "55055.999" with Some g => do b <- py_int g; big_add a b | None => Raise ValueError end) = Some (big 60560) /\
  (do b <- ToByteArray 8972340892734890723 true; Ok (int_from_bytes LE false b)) = Ok 8972340892734890723 /\
  (do b <- ToByteArray (-100) true; Ok (int_from_bytes LE false b)) = Ok 65436 /\
  ToByteArray 128 true = Ok [x80; x00] /\ ToByteArray 0 true = Ok [x00] /\
  Sign 3 = 1 /\ Sign 0 = 0 /\ Sign (-4) = -1 /\
  (do b <- ToByteArray (-100) true; Ok (Sign (pi_val (FromBytes b true)))) = Ok (-1) /\
  (do b <- ToByteArray (-100) true; Ok (Sign (pi_val (FromBytes b false)))) = Ok 1 /\
  big_abs 1 = big 1 /\ big_mod 1 1 = big 0 /\ big_neg 1 = big (-1) /\ big_floordiv 3 2 = big 1 /\ big_rshift 3 1 = big 1 /\ big_lshift 1 3 = big 8.
Proof. repeat split; vm_compute; reflexivity. Qed.
(** :323-535 UIntBase, UInt160 and UInt256 *)
Definition u_of (n : nat) (s : string) : res uint := new_UIntBase n (VBytes (bstr s)).
Example uint_tests :
  (do u <- new_UIntBase 0 VNone; Ok (uint_hash u)) = Ok 0 /\ (do u <- new_UIntBase 10 VNone; Ok (uint_hash u)) = Ok 0 /\
  (do u <- u_of 3 "abc"; Ok (uint_hash u)) = Ok 6513249 /\ (do u <- new_UIntBase 3 (VBytearray (bstr "abc")); Ok (uint_hash u)) = Ok 6513249 /\
  fails (u_of 3 "abcd") = true /\ fails (new_UIntBase 3 (VStr (str "abc"))) = true /\ (do u <- u_of 3 "abc"; Ok (Size u)) = Ok 3%nat /\
  (do u <- u_of 3 "abc"; wr (uint_Serialize u)) = Ok (bstr "abc") /\
  (do u <- new_UIntBase 2 VNone; do v <- rd (uint_Deserialize u) (bstr "abc"); Ok (uint_hash v)) = Ok 25185 /\
  (do u <- u_of 3 "abc"; Ok (ToArray u, M_UInt.ToString u, ToString2 u, To0xString u, ToBytes u)) =
    Ok (bstr "abc", str "636261", str "616263", str "0x636261", bstr "636261") /\
  (do u <- u_of 3 "abc"; do v <- u_of 3 "abd"; Ok (uint_eq u (Some u), uint_eq u (Some v), uint_eq u None)) = Ok (true, false, false) /\
  (do u <- new_UInt160 (VBytes (bstr "12345678901234567890")); do a <- u_of 20 "12345678901234567890"; do b <- u_of 20 "12345678901234567891";
   do c <- u_of 20 "12345678901234567980"; do x <- CompareTo u (Some a); do y <- CompareTo u (Some b); do z <- CompareTo u (Some c); Ok (x, y, z)) = Ok (0, -1, 1) /\
  (do u <- u_of 20 "12345678901234567890"; do v <- new_UInt256 (VBytes (bstr "12345678901234567890123456789012")); CompareTo v (Some u)) = Raise PlainException /\
  (do u <- new_UInt160 (VBytes (bstr "12345678901234567890")); do l <- new_UInt160 (VBytes (bstr "12345678901234567891"));
   do s <- new_UInt160 (VBytes (bstr "12345678901234567880")); do b <- u_of 20 "12345678901234567890";
   do x1 <- uint_lt u (Some l); do x2 <- uint_le u (Some l); do x3 <- uint_le u (Some b); do x4 <- uint_ge u (Some b); do x5 <- uint_ge u (Some s); do x6 <- uint_gt u (Some s);
   Ok (x1, x2, x3, x4, x5, x6, uint_eq u (Some b), uint_eq b (Some u))) = Ok (true, true, true, true, true, true, true, true) /\
  (do u <- new_UIntBase 4 (VBytearray [xde; xad; xbe; xef]); Ok (uint_hash u)) = Ok 4022250974 /\
  (do u <- new_UIntBase 2 (VBytearray [x11; x22]); Ok (uint_hash u)) = Ok 8721 /\
  (do u <- new_UInt160 VNone; Ok (uint_hash u)) = Ok 0 /\ (do u <- new_UInt160 (VBytes (bstr "12345678901234567890")); Ok (uint_hash u)) = Ok 875770417 /\
  fails (new_UInt160 (VBytes (bstr "12345"))) = true /\
  (do u <- UInt160_ParseString (str "0xd7678dd97c000be3f33e9362e673101bac4ca654"); Ok (To0xString u)) = Ok (str "0xd7678dd97c000be3f33e9362e673101bac4ca654") /\
  (do u <- UInt160_ParseString (str "5b7074e873973a6ed3708862f219a6fbf4d1c411"); Ok (M_UInt.ToString u)) = Ok (str "5b7074e873973a6ed3708862f219a6fbf4d1c411") /\
  fails (UInt160_ParseString (str "5b7074e873973a6ed3708862f219a6fbf4d1c41")) = true /\
  (do u <- new_UInt256 (VBytes (bstr "12345678901234567890123456789012")); Ok (uint_hash u)) = Ok 875770417 /\
  fails (new_UInt256 (VBytes (bstr "12345"))) = true /\ fails (new_UInt256 (VStr (str "12345678901234567890123456789012"))) = true /\
  (do u <- UInt256_ParseString (str "0xcedb5c4e24b1f6fc5b239f2d1049c3229ad5ed05293c696b3740dc236c3f41b4"); Ok (To0xString u)) =
    Ok (str "0xcedb5c4e24b1f6fc5b239f2d1049c3229ad5ed05293c696b3740dc236c3f41b4") /\
  fails (UInt256_ParseString (str "9410bd44beb7d6febc9278b028158af2781fcfb40cf2c6067b3525d24eff19f")) = true.
Proof. repeat split; vm_compute; reflexivity. Qed.

(** ** tests/test_cryptography.py, tests/test_KeyPair.py, tests/test_utils.py *)
Example helper_tests :
  xor_bytes (VBytes (bstr "12345")) (VBytes (bstr "09876")) = Ok [x01; x0b; x0b; x03; x03] /\
  xor_bytes (VBytes (bstr "12345")) (VBytes (bstr "x")) = Raise AssertionError /\
  base256_encode 1234567890 0 = Ok [xd2; x02; x96; x49] /\ base256_encode 0 0 = Ok [x00] /\ base256_encode (-1) 0 = Raise ValueError /\
  (do b <- base256_encode 1230 5; Ok (length b)) = Ok 5%nat /\
  (do b <- unhexlify (VStr (str "026241e7e26b38bb7154b8ad49458b97fb1c4797443dc921c5ca5774f511a2bbfc")); pubkey_to_redeem (hexlify b)) =
    unhexlify (VStr (str "21026241e7e26b38bb7154b8ad49458b97fb1c4797443dc921c5ca5774f511a2bbfcac")) /\
  PrivateKeyFromWIF real_hashes false (VStr (str "brokenwif")) = Raise ValueError /\
  PrivateKeyFromWIF real_hashes false (VStr (repeat 65 52)) = Raise ValueError /\
  isValidPublicAddress real_hashes false (str "aaa") = Ok false /\ isValidPublicAddress real_hashes false (repeat 97 40) = Ok false.
Proof. repeat split; vm_compute; reflexivity. Qed.
(** the published SHA-256d vector and the WIF of the NEP-2 test key *)
Example hash_tests :
  double_sha256 real_hashes (bstr "abc") = str "4f8b42c22dd3729b519ba6f68d2da7cc5b2d606d05daed5ad5128cc03e6c6358" /\
  rmap hexlify (PrivateKeyFromWIF real_hashes false (VStr (str "L44B5gGEpqEDRS9vVPz7QT35jcBG2r3CZwSwQ4fCewXAhAhqGVpP"))) =
    Ok (bstr "cbf4b9f70470856bb4f40f80b87edb90865997ffee6df315ab166d713af433a5").
Proof. split; vm_compute; reflexivity. Qed.
