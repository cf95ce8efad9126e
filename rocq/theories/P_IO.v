(** * P_IO: properties C01-C27 (streams).  Statements only; see S_IO, S_IO2, S_Msg
    for the vocabulary and L_IO*.v for the proofs. *)
From Coq Require Import String Lia ZifyBool ZifyNat.
From Verif Require M_Fixed8.
From Verif Require Import M_Py M_UInt M_Writer M_Reader S_IO S_IO2 S_Msg
  L_Bytes L_IO L_VarInt L_Hex L_Utf8 L_IO2 L_IO3 L_IO4 L_IO5.

(** ** C01 Fixed-width integers round-trip through the stream *)
Theorem C01_int_roundtrip : forall t e v, type_min t <= v <= type_max t ->
  exists enc, encodes t e v enc /\
    writes (write_int t v e) (Z.of_nat (type_width t)) enc /\
    reads (read_int t e) enc v.
Proof. exact int_roundtrip. Qed.
Print Assumptions C01_int_roundtrip.
Example C01_example : type_min I16 <= -2 <= type_max I16 /\
  WriteInt16 (-2) BE (at_end [x41]) = (Ok 2, at_end [x41; xff; xfe]) /\
  ReadInt16 BE (mkStream [x41; xff; xfe; x42] 1) = (Ok (-2), mkStream [x41; xff; xfe; x42] 3).
Proof. repeat split; vm_compute; congruence. Qed.

(** ** C02 Out-of-range integers are refused without touching the stream *)
Theorem C02_out_of_range_refused : forall t e v, ~ (type_min t <= v <= type_max t) ->
  refuses (write_int t v e) StructError.
Proof. exact int_refused. Qed.
Print Assumptions C02_out_of_range_refused.
Example C02_example : ~ (type_min U8 <= 256 <= type_max U8) /\
  WriteUInt8 256 LE (mkStream [x41] 0) = (Raise StructError, mkStream [x41] 0).
Proof. split; [cbn; lia|reflexivity]. Qed.

(** ** C03 Fixed-width reads decode every byte string to the one value that encodes to it *)
Theorem C03_read_any : forall t e s, (type_width t <= length (remaining s))%nat ->
  exists v, type_min t <= v <= type_max t /\
    encodes t e v (firstn (type_width t) (remaining s)) /\
    read_int t e s = (Ok v, advance (type_width t) s).
Proof. exact int_read_any. Qed.
Print Assumptions C03_read_any.
Theorem C03_read_short : forall t e s, (length (remaining s) < type_width t)%nat ->
  read_int t e s = (Raise StructError, advance (length (remaining s)) s).
Proof. exact int_read_short. Qed.
Print Assumptions C03_read_short.
Theorem C03_encoding_unique : forall t e v a b, type_min t <= v <= type_max t ->
  encodes t e v a -> encodes t e v b -> a = b.
Proof. exact int_encodes_inj. Qed.
Print Assumptions C03_encoding_unique.
Example C03_example :
  (type_width I16 <= length (remaining (mkStream [x00; xff; x7f] 1)))%nat /\
  ReadInt16 LE (mkStream [x00; xff; x7f] 1) = (Ok 32767, mkStream [x00; xff; x7f] 3) /\
  (length (remaining (mkStream [x00; xff] 1)) < type_width I16)%nat /\
  ReadInt16 LE (mkStream [x00; xff] 1) = (Raise StructError, mkStream [x00; xff] 2).
Proof. repeat split; cbn; lia. Qed.

(** ** C04 Variable-length integers are encoded in the protocol's shortest form *)
Theorem C04_written : forall e v, 0 <= v < 2 ^ 64 ->
  exists enc ret, varint e v enc /\ writes (WriteVarInt (VInt v) e) ret enc.
Proof. exact varint_written. Qed.
Print Assumptions C04_written.
Theorem C04_shortest : forall max e v enc d, varint e v enc ->
  reads (ReadVarInt max) d v -> (length enc <= length d)%nat.
Proof. exact varint_shortest. Qed.
Print Assumptions C04_shortest.
Theorem C04_negative_refused : forall e v, v < 0 -> refuses (WriteVarInt (VInt v) e) PlainException.
Proof. exact WriteVarInt_neg. Qed.
Print Assumptions C04_negative_refused.
Theorem C04_too_big_leaves_marker : forall e v pre, 2 ^ 64 <= v ->
  WriteVarInt (VInt v) e (at_end pre) = (Raise StructError, at_end (pre ++ [xff])).
Proof. exact WriteVarInt_big. Qed.
Print Assumptions C04_too_big_leaves_marker.
Theorem C04_non_int_refused : forall v e, as_int v = None -> refuses (WriteVarInt v e) TypeError.
Proof. exact WriteVarInt_nonint. Qed.
Print Assumptions C04_non_int_refused.
Example C04_example : varint LE 300 [xfd; x2c; x01] /\
  WriteVarInt (VInt 300) LE (at_end []) = (Ok (Some 2), at_end [xfd; x2c; x01]) /\
  WriteVarInt (VInt (2 ^ 64)) LE (at_end [x07]) = (Raise StructError, at_end [x07; xff]).
Proof. split; [constructor; [lia|reflexivity|reflexivity]|]. split; reflexivity. Qed.

(** ** C05 Variable-length integers round-trip within the reader's limit *)
Theorem C05_read_back : forall max v enc, varint LE v enc -> v = 0 \/ v <= max ->
  reads (ReadVarInt max) enc v.
Proof. exact ReadVarInt_reads. Qed.
Print Assumptions C05_read_back.
Theorem C05_over_limit_raises : forall v max enc, varint LE v enc -> 0 < v -> max < v ->
  forall s rest, remaining s = enc ++ rest ->
  ReadVarInt max s = (Raise PlainException, advance (length enc) s).
Proof. exact varint_over. Qed.
Print Assumptions C05_over_limit_raises.
Theorem C05_default_limit : forall v, 2 ^ 63 <= v < 2 ^ 64 ->
  exists enc ret, varint LE v enc /\ writes (WriteVarInt (VInt v) LE) ret enc /\
  forall s rest, remaining s = enc ++ rest ->
  ReadVarInt maxsize s = (Raise PlainException, advance (length enc) s).
Proof. exact varint_beyond_default. Qed.
Print Assumptions C05_default_limit.
Example C05_example : varint LE 65536 [xfe; x00; x00; x01; x00] /\
  ReadVarInt 65536 (mkStream [xfe; x00; x00; x01; x00; x09] 0) = (Ok 65536, mkStream [xfe; x00; x00; x01; x00; x09] 5) /\
  fst (ReadVarInt 65535 (mkStream [xfe; x00; x00; x01; x00; x09] 0)) = Raise PlainException.
Proof. split; [apply varint5; [lia|reflexivity|reflexivity]|]. split; reflexivity. Qed.

(** ** C06 ReadVarInt's verdict on every byte stream *)
Theorem C06_end_of_stream : forall max s, remaining s = [] -> ReadVarInt max s = (Ok 0, s).
Proof. exact ReadVarInt_nil. Qed.
Print Assumptions C06_end_of_stream.
Theorem C06_verdict : forall max s b r, remaining s = b :: r ->
  ReadVarInt max s =
    (if (length r <? announced_width b)%nat then (Raise StructError, advance (1 + length r) s)
     else ((if (Byte.eqb b x00 || (announced_value b r <=? max))%bool
            then Ok (announced_value b r) else Raise PlainException),
           advance (1 + announced_width b) s)).
Proof. exact varint_verdict. Qed.
Print Assumptions C06_verdict.
Theorem C06_not_injective : forall max v, 0 <= v < 253 -> v <= max ->
  exists a b, a <> b /\ reads (ReadVarInt max) a v /\ reads (ReadVarInt max) b v.
Proof. exact varint_not_injective. Qed.
Print Assumptions C06_not_injective.
Example C06_example : ReadVarInt 10 (mkStream [xfd; x05; x00] 0) = (Ok 5, mkStream [xfd; x05; x00] 3) /\
  ReadVarInt 10 (mkStream [xfd; x05] 0) = (Raise StructError, mkStream [xfd; x05] 2) /\
  ReadVarInt 10 (mkStream [] 0) = (Ok 0, mkStream [] 0).
Proof. repeat split. Qed.

(** ** C07 The default endianness pairing is the only one that round-trips *)
Theorem C07_big_endian_varint : forall v enc max, varint BE v enc ->
  (v < 253 -> varint LE v enc) /\
  (253 <= v -> exists m d, enc = m :: d /\
     (num LE d <= max -> reads (ReadVarInt max) enc (num LE d)) /\
     (num LE d > max -> forall s rest, remaining s = enc ++ rest ->
        ReadVarInt max s = (Raise PlainException, advance (length enc) s)) /\
     (num LE d = v <-> d = rev d)).
Proof. exact big_endian_varint. Qed.
Print Assumptions C07_big_endian_varint.
Example C07_example : varint BE 300 [xfd; x01; x2c] /\
  WriteVarInt (VInt 300) BE (at_end []) = (Ok (Some 2), at_end [xfd; x01; x2c]) /\
  fst (ReadVarInt maxsize (mkStream [xfd; x01; x2c] 0)) = Ok 11265.
Proof. split; [constructor; [lia|reflexivity|reflexivity]|]. split; reflexivity. Qed.

(** ** C08 Length-prefixed byte strings round-trip *)
Theorem C08_var_bytes : forall b max, zlen b <= maxsize -> zlen b <= max ->
  exists p, varint LE (zlen b) p /\
  writes (WriteVarBytes (VBytes b) LE) (zlen b) (p ++ b) /\
  writes (WriteVarBytes (VBytearray b) LE) (zlen b) (p ++ b) /\
  reads (ReadVarBytes max) (p ++ b) b /\ reads (ReadVarString max) (p ++ b) b.
Proof. exact var_bytes_ok. Qed.
Print Assumptions C08_var_bytes.
Example C08_example : zlen (bstr "c0ffee") <= maxsize /\
  WriteVarBytes (VBytes (bstr "c0ffee")) LE (at_end []) = (Ok 6, at_end (x06 :: bstr "c0ffee")).
Proof. split; [vm_compute; congruence|reflexivity]. Qed.

(** ** C09 Text strings round-trip through WriteVarString/ReadVarString *)
Theorem C09_text : forall s b max, utf8_decode b = Some s -> zlen b <= maxsize ->
  exists p, varint LE (zlen b) p /\
  writes (WriteVarString (VStr s)) tt (p ++ b) /\
  (zlen b <= max -> reads (ReadVarString max) (p ++ b) b).
Proof. exact WriteVarString_text. Qed.
Print Assumptions C09_text.
(** every surrogate-free text has exactly one UTF-8 form *)
Theorem C09_utf8_form_exists : forall s, scalar_text s <-> exists b, utf8_decode b = Some s.
Proof. exact utf8_exists. Qed.
Print Assumptions C09_utf8_form_exists.
Theorem C09_utf8_form_unique : forall s a b, utf8_decode a = Some s -> utf8_decode b = Some s -> a = b.
Proof. exact utf8_unique. Qed.
Print Assumptions C09_utf8_form_unique.
Theorem C09_surrogates_refused : forall s, Forall code_point s -> ~ scalar_text s ->
  refuses (WriteVarString (VStr s)) UnicodeError.
Proof. exact WriteVarString_surrogate. Qed.
Print Assumptions C09_surrogates_refused.
Theorem C09_bytes_verbatim : forall b, zlen b <= maxsize -> exists p, varint LE (zlen b) p /\
  writes (WriteVarString (VBytes b)) tt (p ++ b) /\ writes (WriteVarString (VBytearray b)) tt (p ++ b).
Proof. exact WriteVarString_bytes. Qed.
Print Assumptions C09_bytes_verbatim.
Theorem C09_other_types_refused : forall v, (forall s, v <> VStr s) -> (forall b, v <> VBytes b) -> (forall b, v <> VBytearray b) ->
  refuses (WriteVarString v) TypeError.
Proof. exact WriteVarString_refused. Qed.
Print Assumptions C09_other_types_refused.
(** U+20AC (euro) and U+1F600 *)
Example C09_example : utf8_decode [xe2; x82; xac; xf0; x9f; x98; x80] = Some [8364; 128512] /\
  WriteVarString (VStr [8364; 128512]) (at_end []) = (Ok tt, at_end [x07; xe2; x82; xac; xf0; x9f; x98; x80]) /\
  ~ scalar_text [55296].
Proof. split; [reflexivity|]. split; [reflexivity|]. intros H. inversion H as [|c l Hc _]; subst. unfold scalar in Hc. lia. Qed.

(** ** C10 What a reader does when the announced data is missing *)
Theorem C10_SafeReadBytes : forall n s, 0 <= n <= maxsize ->
  SafeReadBytes n s =
    if zlen (remaining s) <? n then (Raise ValueError, advance (length (remaining s)) s)
    else (Ok (firstn (Z.to_nat n) (remaining s)), advance (Z.to_nat n) s).
Proof. exact SafeReadBytes_any. Qed.
Print Assumptions C10_SafeReadBytes.
Theorem C10_SafeReadBytes_negative : forall n s, - maxsize - 1 <= n < 0 ->
  SafeReadBytes n s = (Ok (remaining s), advance (length (remaining s)) s).
Proof. exact SafeReadBytes_neg. Qed.
Print Assumptions C10_SafeReadBytes_negative.
Theorem C10_ReadVarString : forall max n p s rest, varint LE n p -> remaining s = p ++ rest -> n <= max -> n <= maxsize ->
  ReadVarString max s =
    if zlen rest <? n then (Raise StructError, advance (length p + length rest) s)
    else (Ok (firstn (Z.to_nat n) rest), advance (length p + Z.to_nat n) s).
Proof. exact ReadVarString_any. Qed.
Print Assumptions C10_ReadVarString.
Theorem C10_ReadString : forall s b rest, remaining s = b :: rest ->
  ReadString s =
    if zlen rest <? b2z b then (Raise StructError, advance (1 + length rest) s)
    else (Ok (firstn (Z.to_nat (b2z b)) rest), advance (1 + Z.to_nat (b2z b)) s).
Proof. exact ReadString_any. Qed.
Print Assumptions C10_ReadString.
Theorem C10_ReadVarBytes_shortens : forall max n p s rest, varint LE n p -> remaining s = p ++ rest -> n <= max -> n <= maxsize ->
  ReadVarBytes max s = (Ok (firstn (Z.to_nat n) rest), advance (length p + length (firstn (Z.to_nat n) rest)) s).
Proof. exact ReadVarBytes_any. Qed.
Print Assumptions C10_ReadVarBytes_shortens.
(** on every stream: ReadVarInt (see C06) decides the count, in whatever encoding, and if it raises so do they *)
Theorem C10_any_count : forall max s n t, ReadVarInt max s = (Ok n, t) -> 0 <= n /\
  (n <= maxsize ->
    ReadVarString max s =
      (if zlen (remaining t) <? n then (Raise StructError, advance (length (remaining t)) t)
       else (Ok (firstn (Z.to_nat n) (remaining t)), advance (Z.to_nat n) t)) /\
    ReadVarBytes max s = (Ok (firstn (Z.to_nat n) (remaining t)), advance (length (firstn (Z.to_nat n) (remaining t))) t)) /\
  (maxsize < n -> ReadVarString max s = (Raise OverflowError, t) /\ ReadVarBytes max s = (Raise OverflowError, t)).
Proof. exact counted_reads. Qed.
Print Assumptions C10_any_count.
Theorem C10_count_raises : forall max s e t, ReadVarInt max s = (Raise e, t) ->
  ReadVarString max s = (Raise e, t) /\ ReadVarBytes max s = (Raise e, t).
Proof. intros max s e t E. unfold ReadVarString, ReadVarBytes, ibind. rewrite E. split; reflexivity. Qed.
Print Assumptions C10_count_raises.
Theorem C10_ReadBytes_shortens : forall n s, 0 <= n <= maxsize ->
  ReadBytes n s = (Ok (firstn (Z.to_nat n) (remaining s)), advance (length (firstn (Z.to_nat n) (remaining s))) s).
Proof. exact ReadBytes_any. Qed.
Print Assumptions C10_ReadBytes_shortens.
Example C10_example :
  fst (SafeReadBytes 3 (mkStream [x01; x02] 0)) = Raise ValueError /\
  fst (ReadVarString 100 (mkStream [x03; x01; x02] 0)) = Raise StructError /\
  fst (ReadVarBytes 100 (mkStream [x03; x01; x02] 0)) = Ok [x01; x02] /\
  varint LE 3 [x03].
Proof. repeat split; try reflexivity. constructor; [lia|reflexivity]. Qed.

(** ** C11 WriteBytes' hexadecimal guess is decided by content alone *)
Theorem C11_hex_decoded : forall b d, hex_denotes (map b2z b) d -> writes (WriteBytes (VBytes b) true) (zlen d) d.
Proof. exact WriteBytes_hex. Qed.
Print Assumptions C11_hex_decoded.
Theorem C11_hex_text_denotes : forall l, hex_text l <-> exists d, hex_denotes l d.
Proof. exact (fun l => conj (fun H => match hex_text_denotes l H with ex_intro _ d (conj Hd _) => ex_intro _ d Hd end)
                           (fun H => match H with ex_intro _ d Hd => hex_denotes_text l d Hd end)). Qed.
Print Assumptions C11_hex_text_denotes.
Theorem C11_other_verbatim : forall b, ~ hex_text (map b2z b) -> writes (WriteBytes (VBytes b) true) (zlen b) b.
Proof. exact WriteBytes_nohex. Qed.
Print Assumptions C11_other_verbatim.
Theorem C11_unhex_false_verbatim : forall b, writes (WriteBytes (VBytes b) false) (zlen b) b.
Proof. exact WriteBytes_false. Qed.
Print Assumptions C11_unhex_false_verbatim.
Theorem C11_bytearray_same : forall b u, WriteBytes (VBytearray b) u = WriteBytes (VBytes b) u.
Proof. exact bytearray_same. Qed.
Print Assumptions C11_bytearray_same.
Theorem C11_str_hex : forall s d, hex_denotes s d -> writes (WriteBytes (VStr s) true) (zlen d) d.
Proof. exact WriteBytes_str_hex. Qed.
Print Assumptions C11_str_hex.
(** other text is refused: with TypeError when it is ASCII, with ValueError when it is not *)
Theorem C11_str_other_refused : forall s, ~ hex_text s ->
  (Forall (fun c => c < 128) s -> refuses (WriteBytes (VStr s) true) TypeError) /\
  (~ Forall (fun c => c < 128) s -> refuses (WriteBytes (VStr s) true) ValueError).
Proof. exact WriteBytes_str_nohex. Qed.
Print Assumptions C11_str_other_refused.
Theorem C11_str_unhex_false_refused : forall s, refuses (WriteBytes (VStr s) false) TypeError.
Proof. exact WriteBytes_str_false'. Qed.
Print Assumptions C11_str_unhex_false_refused.
Example C11_example : hex_denotes (str "0aFF") [x0a; xff] /\ ~ hex_text (str "0aF") /\ ~ hex_text (str "0g").
Proof.
  split; [reflexivity|]. split; intros [H1 H2].
  - destruct H1 as [m Hm]. cbn in Hm. lia.
  - inversion H2 as [|c l _ H3]; subst. inversion H3 as [|c' l' Hc _]; subst. unfold hex_digit_code in Hc. lia.
Qed.

(** ** C12 Writing a UInt160/UInt256 and reading it back *)
Theorem C12_uint160_plain : forall u, is_UInt160 u -> ~ all_hex_digits (u_data u) ->
  writes (WriteUInt160 (Some u)) tt (u_data u) /\ reads ReadUInt160 (u_data u) u.
Proof. exact u160_plain. Qed.
Print Assumptions C12_uint160_plain.
Theorem C12_uint256_plain : forall u, is_UInt256 u -> ~ all_hex_digits (u_data u) ->
  writes (WriteUInt256 (Some u)) tt (u_data u) /\ reads ReadUInt256 (u_data u) u.
Proof. exact u256_plain. Qed.
Print Assumptions C12_uint256_plain.
Theorem C12_uint160_hex_halved : forall u, is_UInt160 u -> all_hex_digits (u_data u) ->
  exists d, hex_denotes (map b2z (u_data u)) d /\ length d = 10%nat /\ writes (WriteUInt160 (Some u)) tt d.
Proof. exact u160_hex. Qed.
Print Assumptions C12_uint160_hex_halved.
Theorem C12_uint256_hex_halved : forall u, is_UInt256 u -> all_hex_digits (u_data u) ->
  exists d, hex_denotes (map b2z (u_data u)) d /\ length d = 16%nat /\ writes (WriteUInt256 (Some u)) tt d.
Proof. exact u256_hex. Qed.
Print Assumptions C12_uint256_hex_halved.
(** exactly the non-hex values survive *)
Theorem C12_uint160_survives_iff : forall u pre, is_UInt160 u ->
  (exists s1 v s2, WriteUInt160 (Some u) (at_end pre) = (Ok tt, s1) /\
     ReadUInt160 (mkStream (content s1) (length pre)) = (Ok v, s2) /\ uint_eq u (Some v) = true)
  <-> ~ all_hex_digits (u_data u).
Proof. exact u160_survives. Qed.
Print Assumptions C12_uint160_survives_iff.
Theorem C12_uint256_survives_iff : forall u pre, is_UInt256 u ->
  (exists s1 v s2, WriteUInt256 (Some u) (at_end pre) = (Ok tt, s1) /\
     ReadUInt256 (mkStream (content s1) (length pre)) = (Ok v, s2) /\ uint_eq u (Some v) = true)
  <-> ~ all_hex_digits (u_data u).
Proof. exact u256_survives. Qed.
Print Assumptions C12_uint256_survives_iff.
(** what a read at that place gives when the value was written as those 10 (16) bytes and other data [rest] follows *)
Theorem C12_uint160_hex_following : forall u d rest s, is_UInt160 u -> hex_denotes (map b2z (u_data u)) d ->
  remaining s = d ++ rest ->
  (exists v s', ReadUInt160 s = (Ok v, s') /\ uint_eq u (Some v) = true) <-> u_data u = firstn 20 (d ++ rest).
Proof. exact u160_hex_following. Qed.
Print Assumptions C12_uint160_hex_following.
Theorem C12_uint256_hex_following : forall u d rest s, is_UInt256 u -> hex_denotes (map b2z (u_data u)) d ->
  remaining s = d ++ rest ->
  (exists v s', ReadUInt256 s = (Ok v, s') /\ uint_eq u (Some v) = true) <-> u_data u = firstn 32 (d ++ rest).
Proof. exact u256_hex_following. Qed.
Print Assumptions C12_uint256_hex_following.
Example C12_completed :
  hex_denotes (map b2z (repeat x33 20)) (repeat x33 10) /\
  repeat x33 20 = firstn 20 (repeat x33 10 ++ repeat x33 10) /\
  repeat x33 20 <> firstn 20 (repeat x33 10 ++ repeat x00 10).
Proof. split; [reflexivity|]. split; [reflexivity|discriminate]. Qed.
Theorem C12_wrong_class_refused : forall u,
  (u_cls u <> CUInt160 -> refuses (WriteUInt160 (Some u)) PlainException) /\
  (u_cls u <> CUInt256 -> refuses (WriteUInt256 (Some u)) PlainException).
Proof. exact WriteUInt_wrong. Qed.
Print Assumptions C12_wrong_class_refused.
Example C12_example :
  new_UInt160 (VBytes (repeat x61 20)) = Ok (mkUInt CUInt160 (repeat x61 20) 1633771873) /\
  is_UInt160 (mkUInt CUInt160 (repeat x61 20) 1633771873) /\ all_hex_digits (repeat x61 20) /\
  fst (WriteUInt160 (Some (mkUInt CUInt160 (repeat x61 20) 1633771873)) (at_end [])) = Ok tt /\
  content (snd (WriteUInt160 (Some (mkUInt CUInt160 (repeat x61 20) 1633771873)) (at_end []))) = repeat xaa 10 /\
  is_UInt160 (mkUInt CUInt160 (repeat x00 20) 0) /\ ~ all_hex_digits (repeat x00 20).
Proof.
  assert (forall b l, all_hex_digits (b :: l) -> hex_digit_code (b2z b)) as Hinv by (intros b l H; inversion H; assumption).
  repeat split; try reflexivity.
  - apply Forall_forall. intros x Hx. apply repeat_spec in Hx. subst x. unfold hex_digit_code. cbn. lia.
  - intros H. apply Hinv in H. unfold hex_digit_code in H. cbn in H. lia.
Qed.

(** ** C13 Fixed-length strings *)
Theorem C13_too_long_refused : forall s b n, utf8_decode b = Some s -> n < zlen b ->
  refuses (WriteFixedString s n) PlainException.
Proof. exact WriteFixedString_long. Qed.
Print Assumptions C13_too_long_refused.
(** text with a lone surrogate has no UTF-8 form *)
Theorem C13_surrogates_refused : forall s n, Forall code_point s -> ~ scalar_text s ->
  refuses (WriteFixedString s n) UnicodeError.
Proof. exact WriteFixedString_surrogate. Qed.
Print Assumptions C13_surrogates_refused.
Theorem C13_roundtrip : forall s b r n, utf8_decode b = Some s -> zlen b <= n -> n <= maxsize ->
  ~ hex_text (map b2z b) \/ b = [] -> without_trailing_zeros b r ->
  exists enc, zlen enc = n /\ enc = b ++ repeat x00 (Z.to_nat (n - zlen b)) /\
    writes (WriteFixedString s n) tt enc /\ reads (ReadFixedString n) enc r.
Proof. exact fixed_string_plain. Qed.
Print Assumptions C13_roundtrip.
Theorem C13_hex_text_shrinks : forall s b d n, utf8_decode b = Some s -> zlen b <= n ->
  hex_denotes (map b2z b) d ->
  writes (WriteFixedString s n) tt (d ++ repeat x00 (Z.to_nat (n - zlen b))) /\
  zlen (d ++ repeat x00 (Z.to_nat (n - zlen b))) = n - zlen d.
Proof. exact fixed_string_hex. Qed.
Print Assumptions C13_hex_text_shrinks.
Example C13_example :
  WriteFixedString (str "neo") 5 (at_end []) = (Ok tt, at_end (bstr "neo" ++ [x00; x00])) /\
  ReadFixedString 5 (mkStream (bstr "neo" ++ [x00; x00; x09]) 0) = (Ok (bstr "neo"), mkStream (bstr "neo" ++ [x00; x00; x09]) 5) /\
  WriteFixedString (str "beef") 5 (at_end []) = (Ok tt, at_end [xbe; xef; x00]).
Proof. repeat split. Qed.

(** ** C14 Hash lists round-trip *)
Theorem C14_hashes_roundtrip : forall l, zlen l <= maxsize ->
  Forall (fun t => hash_text t /\ forall d, wire_bytes t d -> ~ all_hex_digits d) l ->
  exists enc, writes (WriteHashes (map VStr l)) tt enc /\ reads ReadHashes enc (map (map lower) l).
Proof. exact hashes_roundtrip. Qed.
Print Assumptions C14_hashes_roundtrip.
Theorem C14_malformed_raises : forall l t s, In t l -> ~ hex_text t ->
  exists e s', WriteHashes (map VStr l) s = (Raise e, s').
Proof. exact hashes_malformed. Qed.
Print Assumptions C14_malformed_raises.
Example C14_example : hash_text (repeat 65 64) /\ (forall d, wire_bytes (repeat 65 64) d -> ~ all_hex_digits d) /\
  fst (ReadHashes (mkStream (content (snd (WriteHashes [VStr (repeat 65 64); VStr (repeat 57 64)] (at_end [])))) 0))
    = Ok [repeat 97 64; repeat 57 64].
Proof.
  split; [split; [reflexivity|apply Forall_forall; intros x Hx; apply repeat_spec in Hx; subst x; unfold hex_digit_code; lia]|]. split; [|vm_compute; reflexivity].
  intros d Hd Hh. assert (d = repeat xaa 32) as ->.
  { apply (hex_denotes_unique _ _ (repeat xaa 32)) in Hd; [|reflexivity].
    rewrite <- (rev_involutive d), Hd. reflexivity. }
  inversion Hh as [|x l Hx _]; subst. unfold hex_digit_code in Hx. cbn in Hx. lia.
Qed.

(** ** C15 ReadHashes does unbounded work on a tiny stream *)
Theorem C15_count_is_announced : forall s n p rest, varint LE n p -> remaining s = p ++ rest -> n <= maxsize ->
  exists l s', ReadHashes s = (Ok l, s') /\ zlen l = n.
Proof. exact ReadHashes_count. Qed.
Print Assumptions C15_count_is_announced.
(** in whatever encoding the count comes, and with it alone ReadHashes can raise *)
Theorem C15_any_count : forall s,
  (forall n t, ReadVarInt maxsize s = (Ok n, t) -> exists l s', ReadHashes s = (Ok l, s') /\ zlen l = n) /\
  (forall e t, ReadVarInt maxsize s = (Raise e, t) -> ReadHashes s = (Raise e, t)).
Proof. intros s. split; [apply counted_hashes|]. intros e t E. unfold ReadHashes, ibind. rewrite E. reflexivity. Qed.
Print Assumptions C15_any_count.
Theorem C15_amplification : forall n, 0 <= n <= maxsize -> exists p s', (length p <= 9)%nat /\
  ReadHashes (mkStream p 0) = (Ok (repeat [] (Z.to_nat n)), s').
Proof. exact ReadHashes_amplify. Qed.
Print Assumptions C15_amplification.
Example C15_example : fst (ReadHashes (mkStream [x05; x01] 0)) = Ok [str "01"; []; []; []; []].
Proof. reflexivity. Qed.

(** ** C16 Write2000256List and Read2000256List are not inverse *)
Theorem C16_never_inverse : forall l pre, length l = 2000%nat -> Forall hash_text l ->
  exists s1, Write2000256List (map VStr l) (at_end pre) = (Ok tt, s1) /\
  forall r s2, Read2000256List (mkStream (content s1) (length pre)) = (Ok r, s2) ->
    map (map b2z) r <> l /\ map (map b2z) r <> map (map lower) l.
Proof. exact list2000_never. Qed.
Print Assumptions C16_never_inverse.
Example C16_example : length (repeat (repeat 51 64) 2000) = 2000%nat /\ Forall hash_text (repeat (repeat 51 64) 2000).
Proof.
  split; [apply repeat_length|]. apply Forall_forall. intros t Ht. apply repeat_spec in Ht. subst t.
  split; [reflexivity|]. apply Forall_forall. intros c Hc. apply repeat_spec in Hc. subst c. unfold hex_digit_code. lia.
Qed.

(** ** C17 Arrays of serializable objects round-trip *)
Theorem C17_array_roundtrip : forall (k : klass) (R : k_obj k -> k_obj k -> Prop) l max,
  (forall x, In x l -> exists enc y, writes (k_ser k x) tt enc /\ reads (k_deser k (k_new k)) enc y /\ R x y) ->
  zlen l <= max -> zlen l < 2 ^ 64 ->
  exists enc l', writes (WriteSerializableArray k (Some l)) tt enc /\
                 reads (ReadSerializableArray k max) enc l' /\ Forall2 R l l'.
Proof. exact array_roundtrip. Qed.
Print Assumptions C17_array_roundtrip.
Theorem C17_none_is_empty : forall (k : klass) max,
  writes (WriteSerializableArray k None) tt [x00] /\ reads (ReadSerializableArray k max) [x00] [].
Proof. exact array_none. Qed.
Print Assumptions C17_none_is_empty.
(** UInt256 objects (outside the hex exception) meet the hypothesis *)
Theorem C17_uint256_items : forall u, is_UInt256 u -> ~ all_hex_digits (u_data u) ->
  writes (k_ser UInt256_klass u) tt (u_data u) /\ reads (k_deser UInt256_klass (k_new UInt256_klass)) (u_data u) u.
Proof. exact u256_klass_item. Qed.
Print Assumptions C17_uint256_items.

Theorem C17_uint160_items : forall u, is_UInt160 u -> ~ all_hex_digits (u_data u) ->
  writes (k_ser UInt160_klass u) tt (u_data u) /\ reads (k_deser UInt160_klass (k_new UInt160_klass)) (u_data u) u.
Proof.
  intros u (Hc & Hl & Hh) Hn. split.
  - apply Serialize_plain; [rewrite Hl; exists 10%nat; reflexivity|exact Hn].
  - cbn [k_deser k_new UInt160_klass]. unfold uint_Deserialize.
    replace u with (mkUInt CUInt160 (u_data u) (GetHashCode (u_data u))) at 2
      by (rewrite firstn_num, <- Hh, <- Hc; destruct u; reflexivity).
    apply (reads_bind_ret _ (fun b => mkUInt CUInt160 b (GetHashCode b))).
    apply bio_read_exact_n; [unfold zlen; rewrite Hl; reflexivity|unfold maxsize; cbn; lia].
Qed.
Print Assumptions C17_uint160_items.

(** ** C18 A damaged array is silently cut at the first bad item *)
Theorem C18_run_until_bad : forall k max s n p rest, varint LE n p -> remaining s = p ++ rest -> n = 0 \/ n <= max ->
  exists xs s', ReadSerializableArray k max s = (Ok xs, s') /\
    run_until_bad k (advance (length p) s) (Z.to_nat n) xs s'.
Proof. exact array_run. Qed.
Print Assumptions C18_run_until_bad.
(** in whatever encoding the count comes *)
Theorem C18_any_count : forall k max s n t, ReadVarInt max s = (Ok n, t) ->
  exists xs s', ReadSerializableArray k max s = (Ok xs, s') /\ run_until_bad k t (Z.to_nat n) xs s'.
Proof. exact counted_array. Qed.
Print Assumptions C18_any_count.
Theorem C18_only_count_raises : forall k max s e s', ReadSerializableArray k max s = (Raise e, s') ->
  ReadVarInt max s = (Raise e, s').
Proof. exact array_raise_only_count. Qed.
Print Assumptions C18_only_count_raises.
Theorem C18_cut : forall k max s n p items encs rest, varint LE n p -> n <= max ->
  remaining s = p ++ concat encs ++ rest -> zlen items < n ->
  Forall2 (fun x enc => reads (k_deser k (k_new k)) enc x) items encs ->
  (forall t, remaining t = rest -> exists e t', k_deser k (k_new k) t = (Raise e, t')) ->
  exists s', ReadSerializableArray k max s = (Ok items, s').
Proof. exact array_cut. Qed.
Print Assumptions C18_cut.
(** a class whose items are 16-bit integers: 3 announced, 1.5 present *)
Example C18_example :
  let k := mkKlass Z 0 (fun z => WriteUInt16 z LE ;; iret tt) (fun _ => ReadUInt16 LE) in
  fst (ReadSerializableArray k 100 (mkStream [x03; x01; x00; x02] 0)) = Ok [1] /\
  (forall t, remaining t = [x02] -> exists e t', k_deser k (k_new k) t = (Raise e, t')).
Proof.
  split; [reflexivity|]. intros t Ht. eexists _, _. apply (int_read_short U16 LE t). rewrite Ht. cbn. lia.
Qed.

(** ** C19 A message of mixed fields reads back field by field *)
Theorem C19_message : forall m, Forall carriable m -> exists enc out,
  writes (write_message m) tt enc /\ reads (read_message (map fst m)) enc out /\ Forall2 comes_back m out.
Proof. exact message_ok. Qed.
Print Assumptions C19_message.
Example C19_example : Forall carriable
  [(KInt I32 BE, XInt (-5)); (KVarString 100, XText [8364]); (KFixed8, XInt 1); (KChar, XBytes [x41]);
   (KUInt160, XUInt (mkUInt CUInt160 (repeat x00 20) 0)); (KVarInt 1000, XInt 700)].
Proof.
  repeat (apply Forall_cons; [cbn [carriable]; cbn; try lia|]); [| |apply Forall_nil].
  - exists [xe2; x82; xac]. repeat split; unfold maxsize; cbn; lia.
  - repeat split. intros H. inversion H as [|x l Hx _]; subst. unfold hex_digit_code in Hx. cbn in Hx. lia.
Qed.

(** ** C20 Reads never change the data and never move backwards *)
Theorem C20_reads_only_read : forall l s, Forall call_well_behaved l ->
  content (after_reads l s) = content s /\
  (position s <= position (after_reads l s) <= Nat.max (position s) (length (content s)))%nat.
Proof. exact after_reads_ok. Qed.
Print Assumptions C20_reads_only_read.
Example C20_example : Forall call_well_behaved [RVarInt 5; RHashes; RArray UInt256_klass 3; RUInt160] /\
  position (after_reads [RVarInt 5; RUInt160; RByte] (mkStream [xfd; x09; x00; x01] 0)) = 4%nat.
Proof.
  split; [|reflexivity]. repeat (apply Forall_cons; [try exact I|]); [|apply Forall_nil].
  cbn [call_well_behaved k_deser k_new UInt256_klass]. unfold uint_Deserialize.
  apply only_reads_bind; [apply only_reads_bio|intros b; apply only_reads_ret].
Qed.

(** ** C21 Writes at the end only append, even when they fail *)
Theorem C21_writes_only_append : forall l pre, Forall write_well_behaved l ->
  exists d, after_writes l (at_end pre) = at_end (pre ++ d).
Proof. exact after_writes_ok. Qed.
Print Assumptions C21_writes_only_append.
Example C21_example :
  Forall write_well_behaved [WVarInt (VInt (2 ^ 64)) LE; WByte (VInt 300); WBytes (VStr (str "00")) true] /\
  after_writes [WVarInt (VInt (2 ^ 64)) LE; WByte (VInt 300); WBytes (VStr (str "07")) true] (at_end [x41]) = at_end [x41; xff; x07].
Proof. split; [repeat constructor|reflexivity]. Qed.

(** ** C22 Single bytes, chars and bools *)
Theorem C22_bool_write : forall v,
  (false_value v -> writes (WriteBool v) 1 [x00]) /\ (~ false_value v -> writes (WriteBool v) 1 [x01]).
Proof.
  intros v. pose proof (WriteBool_writes v) as W. unfold false_value. split; intros F.
  - repeat (destruct F as [->|F]; [exact W|]). subst v. exact W.
  - destruct (truthy v) eqn:T; [exact W|]. exfalso. apply F. clear -T.
    destruct v as [[|x b]|[|x b]|[|x s]|z|[]|z| |]; cbn in T; try discriminate; try tauto.
    + assert (z = 0) as -> by lia. tauto.
    + assert (z = 0) as -> by lia. tauto.
Qed.
Print Assumptions C22_bool_write.
Theorem C22_bool_read : forall b, reads ReadBool [b] (negb (b2z b =? 0)).
Proof. exact ReadBool_reads. Qed.
Print Assumptions C22_bool_read.
Theorem C22_char_write : forall b, writes (WriteChar (VBytes [b])) 1 [b].
Proof. exact WriteChar_writes. Qed.
Print Assumptions C22_char_write.
Theorem C22_char_read : forall b, reads ReadChar [b] [b].
Proof. exact ReadChar_reads. Qed.
Print Assumptions C22_char_read.
Theorem C22_char_refused : forall v, (forall b, v <> VBytes [b]) -> refuses (WriteChar v) StructError.
Proof. exact WriteChar_bad. Qed.
Print Assumptions C22_char_refused.
Theorem C22_byte_roundtrip : forall v, 0 <= v <= 255 ->
  exists b, b2z b = v /\ writes (WriteByte (VInt v)) tt [b] /\ reads ReadByte [b] v.
Proof. exact WriteByte_ok. Qed.
Print Assumptions C22_byte_roundtrip.
Theorem C22_byte_refused : forall v, ~ (0 <= v <= 255) -> refuses (WriteByte (VInt v)) ValueError.
Proof. exact WriteByte_int_bad. Qed.
Print Assumptions C22_byte_refused.
Theorem C22_byte_read : forall b, reads ReadByte [b] (b2z b).
Proof. exact ReadByte_reads. Qed.
Print Assumptions C22_byte_read.
Theorem C22_byte_at_end_is_zero : forall s, remaining s = [] -> ReadByte s = (Ok 0, s).
Proof. exact ReadByte_nil. Qed.
Print Assumptions C22_byte_at_end_is_zero.
(** ReadByte(do_ord=False): the byte itself, and at the end the empty bytes, unlike a stored zero byte *)
Theorem C22_byte_raw : forall s, (forall b, reads ReadByte_raw [b] [b]) /\ (remaining s = [] -> ReadByte_raw s = (Ok [], s)).
Proof. intros s. split; [exact ReadByte_raw_reads|]. intros H. unfold ReadByte_raw. rewrite bio_read_spec by (unfold maxsize; lia). rewrite H. destruct s as [d p]. unfold advance. cbn [firstn Datatypes.length content position Nat.add Z.to_nat]. rewrite ?firstn_nil, ?Nat.add_0_r. cbn [Datatypes.length]. rewrite ?Nat.add_0_r. reflexivity. Qed.
Print Assumptions C22_byte_raw.
Theorem C22_bool_at_end_raises : forall s, remaining s = [] -> ReadBool s = (Raise StructError, s).
Proof. exact ReadBool_eof. Qed.
Print Assumptions C22_bool_at_end_raises.
Theorem C22_char_at_end_raises : forall s, remaining s = [] -> ReadChar s = (Raise StructError, s).
Proof. exact ReadChar_eof. Qed.
Print Assumptions C22_char_at_end_raises.
Example C22_example : ReadBool (mkStream [x02] 0) = (Ok true, mkStream [x02] 1) /\
  ReadByte (mkStream [x00] 0) = (Ok 0, mkStream [x00] 1) /\ ReadByte (mkStream [] 0) = (Ok 0, mkStream [] 0).
Proof. repeat split. Qed.

(** ** C23 Subclasses of int are silently dropped by WriteByte and short WriteVarInt *)
Theorem C23_byte_dropped : forall z b, writes (WriteByte (VBig z)) tt [] /\ writes (WriteByte (VBool b)) tt [].
Proof. exact dropped_byte. Qed.
Print Assumptions C23_byte_dropped.
Theorem C23_varint_dropped : forall e z b,
  (0 <= z < 253 -> writes (WriteVarInt (VBig z) e) None []) /\ writes (WriteVarInt (VBool b) e) None [].
Proof. exact dropped_varint. Qed.
Print Assumptions C23_varint_dropped.
Theorem C23_varint_long_normal : forall e z, 253 <= z -> WriteVarInt (VBig z) e = WriteVarInt (VInt z) e.
Proof. exact big_varint_same. Qed.
Print Assumptions C23_varint_long_normal.
Example C23_example : WriteVarInt (VBig 7) LE (at_end [x41]) = (Ok None, at_end [x41]) /\
  WriteVarInt (VInt 7) LE (at_end [x41]) = (Ok None, at_end [x41; x07]) /\
  WriteVarInt (VBig 253) LE (at_end [x41]) = (Ok (Some 2), at_end [x41; xfd; xfd; x00]).
Proof. repeat split. Qed.

(** ** C24 Reported byte counts of WriteVarInt/WriteVarBytes *)
Theorem C24_varint_reported : forall v e, 0 <= v < 2 ^ 64 -> exists enc, varint e v enc /\
  writes (WriteVarInt (VInt v) e) (if v <? 253 then None else Some (zlen enc - 1)) enc.
Proof. exact varint_reported. Qed.
Print Assumptions C24_varint_reported.
Theorem C24_varbytes_reported : forall b, zlen b <= maxsize -> exists p, varint LE (zlen b) p /\
  writes (WriteVarBytes (VBytes b) LE) (zlen (p ++ b) - zlen p) (p ++ b).
Proof. exact varbytes_reported. Qed.
Print Assumptions C24_varbytes_reported.
Example C24_example : fst (WriteVarInt (VInt 65536) LE (at_end [])) = Ok (Some 4) /\
  length (content (snd (WriteVarInt (VInt 65536) LE (at_end [])))) = 5%nat.
Proof. split; reflexivity. Qed.

(** ** C25 Fixed8 amounts round-trip through the stream *)
Theorem C25_fixed8_roundtrip : forall z, - 2 ^ 63 <= z < 2 ^ 63 -> exists enc,
  length enc = 8%nat /\ encodes I64 LE z enc /\ writes (WriteFixed8 z) 8 enc /\ reads ReadFixed8 enc z.
Proof. exact fixed8_rt. Qed.
Print Assumptions C25_fixed8_roundtrip.
Theorem C25_fixed8_refused : forall z, ~ (- 2 ^ 63 <= z < 2 ^ 63) -> refuses (WriteFixed8 z) StructError.
Proof. exact fixed8_refused. Qed.
Print Assumptions C25_fixed8_refused.
(** Size() is the number of bytes written *)
Theorem C25_size : forall z n enc, WriteFixed8 z (at_end []) = (Ok n, at_end enc) -> M_Fixed8.f8_Size z = zlen enc /\ n = zlen enc.
Proof.
  intros z n enc H. destruct (Z_le_dec (- 2 ^ 63) z) as [A|A], (Z_lt_dec z (2 ^ 63)) as [B|B];
   try (assert (R : ~ (- 2 ^ 63 <= z < 2 ^ 63)) by (intros [? ?]; contradiction); pose proof (fixed8_refused z R (at_end [])) as K; rewrite H in K; discriminate K).
  destruct (fixed8_rt z (conj A B)) as (e & L & _ & W & _). pose proof (W []) as K. rewrite H in K.
  injection K as K1 K2. cbn [app] in K2. rewrite K1, K2. unfold zlen. rewrite L. split; reflexivity.
Qed.
Print Assumptions C25_size.
Example C25_example : WriteFixed8 100000000 (at_end []) = (Ok 8, at_end [x00; xe1; xf5; x05; x00; x00; x00; x00]).
Proof. reflexivity. Qed.

(** ** C26 swap32 reverses the four bytes and is an involution *)
Theorem C26_swap32_reverses : forall i, 0 <= i < 2 ^ 32 ->
  exists d j, length d = 4%nat /\ num_be d = i /\ swap32 i = Ok j /\ num_le d = j /\ 0 <= j < 2 ^ 32.
Proof. exact swap32_spec. Qed.
Print Assumptions C26_swap32_reverses.
Theorem C26_swap32_involution : forall i j, swap32 i = Ok j -> swap32 j = Ok i.
Proof. exact swap32_involutive. Qed.
Print Assumptions C26_swap32_involution.
Theorem C26_swap32_refused : forall i, ~ (0 <= i < 2 ^ 32) -> swap32 i = Raise StructError.
Proof. exact swap32_bad. Qed.
Print Assumptions C26_swap32_refused.
Example C26_example : swap32 4294901760 = Ok 65535.
Proof. reflexivity. Qed.

(** ** C27 convert_to_uint160/uint256 *)
Theorem C27_uint160_bits : forall v, 0 <= v -> length (convert_to_uint160 v) = 20%nat /\
  binary_text (convert_to_uint160 v) /\ bits_value (convert_to_uint160 v) = v mod 2 ^ 20.
Proof. exact c160. Qed.
Print Assumptions C27_uint160_bits.
Theorem C27_uint256_bits : forall v, 0 <= v -> length (convert_to_uint256 v) = 32%nat /\
  binary_text (convert_to_uint256 v) /\ bits_value (convert_to_uint256 v) = v mod 2 ^ 32.
Proof. exact c256. Qed.
Print Assumptions C27_uint256_bits.
(** down to half the range below zero the bits are those of two's complement *)
Theorem C27_twos_complement : forall v,
  (- 2 ^ 19 <= v < 0 -> length (convert_to_uint160 v) = 20%nat /\ binary_text (convert_to_uint160 v) /\ bits_value (convert_to_uint160 v) = v mod 2 ^ 20) /\
  (- 2 ^ 31 <= v < 0 -> length (convert_to_uint256 v) = 32%nat /\ binary_text (convert_to_uint256 v) /\ bits_value (convert_to_uint256 v) = v mod 2 ^ 32).
Proof. intros v. split; intros H; [apply (bin_mid 20 v); [lia|exact H]|apply (bin_mid 32 v); [lia|exact H]]. Qed.
Print Assumptions C27_twos_complement.
(** every int: the last characters of Python's text for v + 2^20 (v + 2^32), which has a sign when
    that is negative and the prefix 0b, so further below zero letters and signs get in *)
Theorem C27_text : forall v,
  (exists t, binary_of (Z.abs (v + 2 ^ 20)) t /\ let whole := (if v <? - 2 ^ 20 then str "-" else []) ++ str "0b" ++ t in
     convert_to_uint160 v = skipn (length whole - 20) whole) /\
  (exists t, binary_of (Z.abs (v + 2 ^ 32)) t /\ let whole := (if v <? - 2 ^ 32 then str "-" else []) ++ str "0b" ++ t in
     convert_to_uint256 v = skipn (length whole - 32) whole).
Proof.
  intros v. split; [destruct (bin_shape (v + 2 ^ 20)) as [t [T E]]|destruct (bin_shape (v + 2 ^ 32)) as [t [T E]]]; exists t; (split; [exact T|]); cbv zeta;
  [unfold convert_to_uint160|unfold convert_to_uint256]; rewrite E; unfold last_n.
  - replace (v <? - 2 ^ 20) with (v + 2 ^ 20 <? 0) by (destruct (Z.ltb_spec (v + 2 ^ 20) 0), (Z.ltb_spec v (- 2 ^ 20)); try reflexivity; lia). reflexivity.
  - replace (v <? - 2 ^ 32) with (v + 2 ^ 32 <? 0) by (destruct (Z.ltb_spec (v + 2 ^ 32) 0), (Z.ltb_spec v (- 2 ^ 32)); try reflexivity; lia). reflexivity.
Qed.
Print Assumptions C27_text.
Example C27_negative_example : convert_to_uint160 (-1) = str "11111111111111111111" /\ convert_to_uint160 (-600000) = str "b1101101100001000000" /\
  convert_to_uint160 (-1048581) = str "-0b101" /\ convert_to_uint160 (-2097153) = str "00000000000000000001".
Proof. repeat split; reflexivity. Qed.
Example C27_example : convert_to_uint160 5 = str "00000000000000000101" /\ bits_value (str "101") = 5.
Proof. split; reflexivity. Qed.
