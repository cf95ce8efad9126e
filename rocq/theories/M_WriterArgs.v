(** * M_WriterArgs: BinaryWriter with the remaining argument types

    The integer writers with an argument of any type, and WriteVarString with its [encoding] argument.

    M_Writer.WriteVarString is the default 'utf-8'.  str.encode / bytes.decode for the codecs below
    are runtime behaviour (trusted, see DESIGN.md); 'utf-16' and 'utf-32' as on a little-endian machine. *)
From Verif Require Import M_Py M_UInt M_Writer.

Inductive encoding := EUtf8 | EAscii | ELatin1 | EUtf16 | EUtf16LE | EUtf16BE | EUtf32 | EUtf32LE | EUtf32BE.

(** one code point in UTF-16 / UTF-32 *)
Definition utf16_char (e : endian) (c : Z) : bytes :=
  if c <? 65536 then z2bytes e 2 c
  else z2bytes e 2 (55296 + (c - 65536) / 1024) ++ z2bytes e 2 (56320 + (c - 65536) mod 1024).
Definition utf32_char (e : endian) (c : Z) : bytes := z2bytes e 4 c.
Definition wide_encode (f : Z -> bytes) (s : pystr) : res bytes :=
  if existsb is_surrogate s then Raise UnicodeError else Ok (flat_map f s).

(** s.encode(c) *)
Definition str_encode (c : encoding) (s : pystr) : res bytes :=
  match c with
  | EUtf8 => utf8_encode s
  | EAscii => ascii_encode s
  | ELatin1 => if forallb (fun x => x <? 256) s then Ok (map z2b s) else Raise UnicodeError
  | EUtf16 => do b <- wide_encode (utf16_char LE) s; Ok (xff :: xfe :: b)
  | EUtf16LE => wide_encode (utf16_char LE) s
  | EUtf16BE => wide_encode (utf16_char BE) s
  | EUtf32 => do b <- wide_encode (utf32_char LE) s; Ok (xff :: xfe :: x00 :: x00 :: b)
  | EUtf32LE => wide_encode (utf32_char LE) s
  | EUtf32BE => wide_encode (utf32_char BE) s
  end.

Fixpoint utf16_decode (e : endian) (b : bytes) : option pystr :=
  match b with
  | [] => Some []
  | x :: y :: r =>
      let u := bytes2z e [x; y] in
      if is_surrogate u then
        match r with
        | z :: w :: r' =>
            let v := bytes2z e [z; w] in
            if (u <? 56320) && (56320 <=? v) && (v <=? 57343)
            then option_map (cons (65536 + (u - 55296) * 1024 + (v - 56320))) (utf16_decode e r')
            else None
        | _ => None
        end
      else option_map (cons u) (utf16_decode e r)
  | _ => None
  end.
Fixpoint utf32_decode (e : endian) (b : bytes) : option pystr :=
  match b with
  | [] => Some []
  | x :: y :: z :: w :: r =>
      let u := bytes2z e [x; y; z; w] in
      if (1114111 <? u) || is_surrogate u then None else option_map (cons u) (utf32_decode e r)
  | _ => None
  end.
Definition or_unicode_error (o : option pystr) : res pystr := match o with Some s => Ok s | None => Raise UnicodeError end.

(** b.decode(c); called only on hexlify output, so UTF-8 is only needed for ASCII bytes *)
Definition bytes_decode (c : encoding) (b : bytes) : res pystr :=
  match c with
  | EUtf8 | EAscii => if forallb (fun x => b2z x <? 128) b then Ok (ascii_decode b) else Raise UnicodeError
  | ELatin1 => Ok (ascii_decode b)
  | EUtf16 =>
      or_unicode_error (match b with
                        | xff :: xfe :: r => utf16_decode LE r
                        | xfe :: xff :: r => utf16_decode BE r
                        | _ => utf16_decode LE b
                        end)
  | EUtf16LE => or_unicode_error (utf16_decode LE b)
  | EUtf16BE => or_unicode_error (utf16_decode BE b)
  | EUtf32 =>
      or_unicode_error (match b with
                        | xff :: xfe :: x00 :: x00 :: r => utf32_decode LE r
                        | x00 :: x00 :: xfe :: xff :: r => utf32_decode BE r
                        | _ => utf32_decode LE b
                        end)
  | EUtf32LE => or_unicode_error (utf32_decode LE b)
  | EUtf32BE => or_unicode_error (utf32_decode BE b)
  end.

(** BinaryWriter.py:358-375 WriteVarString(value, encoding) *)
Definition WriteVarString_enc (encoding : encoding) (value : pyval) : io unit :=
  value <-- ilift (match value with
                   | VStr s => do b <- str_encode encoding s; Ok (VBytes b)
                   | v => Ok v
                   end) ;
  length <-- ilift (py_len value) ;
  match value with
  | VBytes b | VBytearray b =>
      string <-- ilift (bytes_decode encoding (hexlify b)) ;
      WriteVarInt (VInt length) LE ;;
      WriteBytes (VStr string) true ;;
      iret tt
  | _ => iraise TypeError
  end.

(** BinaryWriter.py:106-118 pack with an integer format and an argument of any type: struct.pack
    takes int and its subclasses (bool, BigInteger); anything else raises struct.error *)
Definition pack_any (e : endian) (sg : bool) (n : nat) (value : pyval) : io Z :=
  match as_int value with Some z => pack_int e sg n z | None => iraise StructError end.
(** BinaryWriter.py:158-272 *)
Definition WriteInt8_any (value : pyval) (e : endian) : io Z := pack_any e true 1 value.
Definition WriteUInt8_any (value : pyval) (e : endian) : io Z := pack_any e false 1 value.
Definition WriteInt16_any (value : pyval) (e : endian) : io Z := pack_any e true 2 value.
Definition WriteUInt16_any (value : pyval) (e : endian) : io Z := pack_any e false 2 value.
Definition WriteInt32_any (value : pyval) (e : endian) : io Z := pack_any e true 4 value.
Definition WriteUInt32_any (value : pyval) (e : endian) : io Z := pack_any e false 4 value.
Definition WriteInt64_any (value : pyval) (e : endian) : io Z := pack_any e true 8 value.
Definition WriteUInt64_any (value : pyval) (e : endian) : io Z := pack_any e false 8 value.
