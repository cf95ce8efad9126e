(** * M_Reader: neocore/IO/BinaryReader.py (ReadFloat/ReadDouble: M_FloatIO) *)
From Verif Require Import M_Py M_UInt M_Writer.

(** BinaryReader.py:32-44 unpack, for the integer formats *)
Definition unpack_int (e : endian) (sg : bool) (n : nat) : io Z :=
  b <-- bio_read (Z.of_nat n) ; ilift (struct_unpack_int e sg n b).

(** BinaryReader.py:46-62 ReadByte(do_ord=True): ord(b'') raises TypeError, which
    is caught and 0 returned *)
Definition ReadByte : io Z :=
  itry (b <-- bio_read 1 ;
        match b with [x] => iret (b2z x) | _ => iraise TypeError end)
       (fun _ => iret 0).
(** BinaryReader.py:59 ReadByte(do_ord=False) *)
Definition ReadByte_raw : io bytes := bio_read 1.

(** BinaryReader.py:64-75 ReadBytes *)
Definition ReadBytes (length : Z) : io bytes := bio_read length.

(** BinaryReader.py:77-91 SafeReadBytes *)
Definition SafeReadBytes (length : Z) : io bytes :=
  data <-- ReadBytes length ;
  if zlen data <? length then iraise ValueError else iret data.

(** BinaryReader.py:93-100 ReadBool *)
Definition ReadBool : io bool := b <-- bio_read 1 ; ilift (struct_unpack_bool b).
(** BinaryReader.py:102-109 ReadChar *)
Definition ReadChar : io bytes := b <-- bio_read 1 ; ilift (struct_unpack_char b).

(** BinaryReader.py:135-229 *)
Definition ReadInt8 (e : endian) : io Z := unpack_int e true 1.
Definition ReadUInt8 (e : endian) : io Z := unpack_int e false 1.
Definition ReadInt16 (e : endian) : io Z := unpack_int e true 2.
Definition ReadUInt16 (e : endian) : io Z := unpack_int e false 2.
Definition ReadInt32 (e : endian) : io Z := unpack_int e true 4.
Definition ReadUInt32 (e : endian) : io Z := unpack_int e false 4.
Definition ReadInt64 (e : endian) : io Z := unpack_int e true 8.
Definition ReadUInt64 (e : endian) : io Z := unpack_int e false 8.

(** BinaryReader.py:231-258 ReadVarInt.  `fb is 0` is identity on the cached
    small int 0, i.e. equality. *)
Definition ReadVarInt (max : Z) : io Z :=
  fb <-- ReadByte ;
  if fb =? 0 then iret fb
  else
    value <-- (if fb =? 253 then ReadUInt16 LE
               else if fb =? 254 then ReadUInt32 LE
               else if fb =? 255 then ReadUInt64 LE
               else iret fb) ;
    if value >? max then iraise PlainException else iret value.

(** BinaryReader.py:260-272 ReadVarBytes *)
Definition ReadVarBytes (max : Z) : io bytes :=
  length <-- ReadVarInt max ; ReadBytes length.

(** unpack(str(length) + 's', length) *)
Definition unpack_s (length : Z) : io bytes :=
  b <-- bio_read length ; ilift (struct_unpack_s length b).

(** BinaryReader.py:274-282 ReadString *)
Definition ReadString : io bytes := length <-- ReadUInt8 LE ; unpack_s length.

(** BinaryReader.py:284-295 ReadVarString *)
Definition ReadVarString (max : Z) : io bytes :=
  length <-- ReadVarInt max ; unpack_s length.

(** BinaryReader.py:297-306 ReadFixedString *)
Definition ReadFixedString (length : Z) : io bytes :=
  b <-- ReadBytes length ; iret (rstrip0 b).

(** BinaryReader.py:325-332: the loop under try; an exception ends it and keeps
    the items read so far *)
Fixpoint deserialize_loop {A} (deser : io A) (n : nat) : io (list A) :=
  match n with
  | O => iret []
  | S k => fun s =>
      match deser s with
      | (Ok item, s') =>
          match deserialize_loop deser k s' with
          | (Ok items, s'') => (Ok (item :: items), s'')
          | r => r
          end
      | (Raise _, s') => (Ok [], s')
      end
  end.

(** BinaryReader.py:308-334 ReadSerializableArray; the class lookup by name
    (319-321) is replaced by passing the class *)
Definition ReadSerializableArray (k : klass) (max : Z) : io (list (k_obj k)) :=
  length <-- ReadVarInt max ;
  deserialize_loop (k_deser k (k_new k)) (Z.to_nat length).

(** BinaryReader.py:336-343 ReadUInt256 *)
Definition ReadUInt256 : io uint :=
  b <-- ReadBytes 32 ; ilift (new_UInt256 (VBytearray b)).
(** BinaryReader.py:345-352 ReadUInt160 *)
Definition ReadUInt160 : io uint :=
  b <-- ReadBytes 20 ; ilift (new_UInt160 (VBytearray b)).

(** UIntBase.py:41-43 Deserialize *)
Definition uint_Deserialize (u : uint) : io uint :=
  b <-- ReadBytes (Z.of_nat (Size u)) ;
  iret (mkUInt (u_cls u) b (GetHashCode b)).

(** UInt160 and UInt256 as array item classes *)
Definition UInt160_klass : klass :=
  mkKlass uint (mkUInt CUInt160 (repeat x00 20) 0) uint_Serialize uint_Deserialize.
Definition UInt256_klass : klass :=
  mkKlass uint (mkUInt CUInt256 (repeat x00 32) 0) uint_Serialize uint_Deserialize.

(** repeat an action n times collecting the results *)
Fixpoint io_repeat {A} (n : nat) (m : io A) : io (list A) :=
  match n with
  | O => iret []
  | S k => x <-- m ; (l <-- io_repeat k m ; iret (x :: l))
  end.

(** loop body of BinaryReader.py:362-366 *)
Definition read_hex64 : io bytes :=
  data <-- ReadBytes 64 ;
  ba <-- ilift (unhexlify (VBytes data)) ;
  iret (map z2b (hex (rev ba))).
(** BinaryReader.py:354-367 Read2000256List *)
Definition Read2000256List : io (list bytes) := io_repeat 2000 read_hex64.

(** loop body of BinaryReader.py:378-381 *)
Definition read_hash : io pystr :=
  ba <-- ReadBytes 32 ; iret (hex (rev ba)).
(** BinaryReader.py:369-382 ReadHashes *)
Definition ReadHashes : io (list pystr) :=
  len <-- ReadVarInt maxsize ; io_repeat (Z.to_nat len) read_hash.

(** BinaryReader.py:384-392 ReadFixed8: the Fixed8's integer value *)
Definition ReadFixed8 : io Z := ReadInt64 LE.
