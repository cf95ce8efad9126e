(** * S_WriterArgs: vocabulary for C91 and C92 *)
From Verif Require Import M_Py M_UInt M_Writer M_WriterArgs S_IO.

(** [v] stands for the integer [z]: an int, a BigInteger, or a bool. *)
Definition stands_for (v : pyval) (z : Z) : Prop :=
  v = VInt z \/ v = VBig z \/ (v = VBool false /\ z = 0) \/ (v = VBool true /\ z = 1).
Definition write_any (t : int_type) : pyval -> endian -> io Z :=
  match t with
  | I8 => WriteInt8_any | U8 => WriteUInt8_any | I16 => WriteInt16_any | U16 => WriteUInt16_any
  | I32 => WriteInt32_any | U32 => WriteUInt32_any | I64 => WriteInt64_any | U64 => WriteUInt64_any
  end.

(** Number of bytes of a text in UTF-16 without byte order mark. *)
Definition utf16_size (s : pystr) : Z := fold_right (fun c n => (if c <? 65536 then 2 else 4) + n) 0 s.
(** The UTF-16 encodings, with the size of the byte order mark they put in front. *)
Definition is_utf16 (c : encoding) (bom : Z) : Prop :=
  c = EUtf16 /\ bom = 2 \/ c = EUtf16LE /\ bom = 0 \/ c = EUtf16BE /\ bom = 0.
Definition is_utf32 (c : encoding) : Prop := c = EUtf32 \/ c = EUtf32LE \/ c = EUtf32BE.
(** The one-byte encodings, with the number of characters they know. *)
Definition is_one_byte (c : encoding) (limit : Z) : Prop := c = EAscii /\ limit = 128 \/ c = ELatin1 /\ limit = 256.
(** At the end of every stream, [w] raises [e] after having appended [enc]. *)
Definition fails_after {R} (w : io R) (e : exn) (enc : bytes) : Prop :=
  forall pre, w (at_end pre) = (Raise e, at_end (pre ++ enc)).
