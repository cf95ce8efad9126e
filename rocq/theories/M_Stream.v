(** * M_Stream: BinaryReader and BinaryWriter over an arbitrary stream object

    M_Reader and M_Writer fix the stream to be an io.BytesIO.  Here the same methods run over any
    object with read(n) and write(b): these may raise, deliver fewer bytes than asked for, accept
    fewer bytes than given and return anything (raw files and sockets do).  The state of the stream
    is any type [S]; what write returns is any type [N], because BinaryWriter only passes it on.
    P_Stream shows that over BytesIO these definitions are those of M_Reader and M_Writer. *)
From Coq Require Import Floats.SpecFloat.
From Verif Require Import M_Py M_Float M_UInt M_Writer M_Reader M_FloatIO M_ECCurve.

Section Device.
Context {S N : Type}.
(** stream.read(n) (BinaryReader.py:44,58,59,74) and stream.write(b) (BinaryWriter.py:82,84,86,104) *)
Context (dread : Z -> S -> res bytes * S) (dwrite : bytes -> S -> res N * S).

Definition gio (A : Type) : Type := S -> res A * S.
Definition gret {A} (a : A) : gio A := fun s => (Ok a, s).
Definition graise {A} (e : exn) : gio A := fun s => (Raise e, s).
Definition glift {A} (r : res A) : gio A := fun s => (r, s).
Definition gbind {A B} (m : gio A) (f : A -> gio B) : gio B :=
  fun s => match m s with (Ok a, s') => f a s' | (Raise e, s') => (Raise e, s') end.
Definition gtry {A} (m : gio A) (h : exn -> gio A) : gio A :=
  fun s => match m s with (Ok a, s') => (Ok a, s') | (Raise e, s') => h e s' end.
Notation "x <-- m ; f" := (gbind m (fun x => f)) (at level 61, m at next level, f at level 200, right associativity).
Notation "m ;; f" := (gbind m (fun _ => f)) (at level 61, f at level 200, right associativity).

(** ** BinaryReader *)

(** BinaryReader.py:32-44 unpack, for the integer formats *)
Definition gunpack_int (e : endian) (sg : bool) (n : nat) : gio Z :=
  b <-- dread (Z.of_nat n) ; glift (struct_unpack_int e sg n b).
(** BinaryReader.py:46-62 ReadByte(do_ord=True) *)
Definition gReadByte : gio Z :=
  gtry (b <-- dread 1 ; match b with [x] => gret (b2z x) | _ => graise TypeError end) (fun _ => gret 0).
(** BinaryReader.py:64-75 ReadBytes, :77-91 SafeReadBytes *)
Definition gReadBytes (length : Z) : gio bytes := dread length.
Definition gSafeReadBytes (length : Z) : gio bytes :=
  data <-- gReadBytes length ; if zlen data <? length then graise ValueError else gret data.
(** BinaryReader.py:93-100 ReadBool, :102-109 ReadChar *)
Definition gReadBool : gio bool := b <-- dread 1 ; glift (struct_unpack_bool b).
Definition gReadChar : gio bytes := b <-- dread 1 ; glift (struct_unpack_char b).
(** BinaryReader.py:111-121 ReadFloat, :123-133 ReadDouble *)
Definition gReadFloat (e : endian) : gio pyfloat :=
  b <-- dread 4 ; glift (if zlen b =? 4 then Ok (widen (of_bits FSingle (bytes2z e b))) else Raise StructError).
Definition gReadDouble (e : endian) : gio pyfloat :=
  b <-- dread 8 ; glift (if zlen b =? 8 then Ok (of_bits FDouble (bytes2z e b)) else Raise StructError).
(** BinaryReader.py:231-258 ReadVarInt *)
Definition gReadVarInt (max : Z) : gio Z :=
  fb <-- gReadByte ;
  if fb =? 0 then gret fb
  else
    value <-- (if fb =? 253 then gunpack_int LE false 2
               else if fb =? 254 then gunpack_int LE false 4
               else if fb =? 255 then gunpack_int LE false 8
               else gret fb) ;
    if value >? max then graise PlainException else gret value.
(** BinaryReader.py:260-272 ReadVarBytes *)
Definition gReadVarBytes (max : Z) : gio bytes := length <-- gReadVarInt max ; gReadBytes length.
Definition gunpack_s (length : Z) : gio bytes := b <-- dread length ; glift (struct_unpack_s length b).
(** BinaryReader.py:274-282 ReadString, :284-295 ReadVarString, :297-306 ReadFixedString *)
Definition gReadString : gio bytes := length <-- gunpack_int LE false 1 ; gunpack_s length.
Definition gReadVarString (max : Z) : gio bytes := length <-- gReadVarInt max ; gunpack_s length.
Definition gReadFixedString (length : Z) : gio bytes := b <-- gReadBytes length ; gret (rstrip0 b).
(** BinaryReader.py:308-334 ReadSerializableArray, for items deserialized by [deser] *)
Fixpoint gdeserialize_loop {A} (deser : gio A) (n : nat) : gio (list A) :=
  match n with
  | O => gret []
  | Datatypes.S k => fun s =>
      match deser s with
      | (Ok item, s') =>
          match gdeserialize_loop deser k s' with
          | (Ok items, s'') => (Ok (item :: items), s'')
          | r => r
          end
      | (Raise _, s') => (Ok [], s')
      end
  end.
Definition gReadSerializableArray {A} (deser : gio A) (max : Z) : gio (list A) :=
  length <-- gReadVarInt max ; gdeserialize_loop deser (Z.to_nat length).
(** BinaryReader.py:336-343 ReadUInt256, :345-352 ReadUInt160, UIntBase.py:41-43 Deserialize *)
Definition gReadUInt256 : gio uint := b <-- gReadBytes 32 ; glift (new_UInt256 (VBytearray b)).
Definition gReadUInt160 : gio uint := b <-- gReadBytes 20 ; glift (new_UInt160 (VBytearray b)).
Definition guint_Deserialize (u : uint) : gio uint :=
  b <-- gReadBytes (Z.of_nat (Size u)) ; gret (mkUInt (u_cls u) b (GetHashCode b)).
(** BinaryReader.py:354-367 Read2000256List, :369-382 ReadHashes *)
Fixpoint grepeat {A} (n : nat) (m : gio A) : gio (list A) :=
  match n with
  | O => gret []
  | Datatypes.S k => x <-- m ; (l <-- grepeat k m ; gret (x :: l))
  end.
Definition gread_hex64 : gio bytes :=
  data <-- gReadBytes 64 ; (ba <-- glift (unhexlify (VBytes data)) ; gret (map z2b (hex (rev ba)))).
Definition gRead2000256List : gio (list bytes) := grepeat 2000 gread_hex64.
Definition gread_hash : gio pystr := ba <-- gReadBytes 32 ; gret (hex (rev ba)).
Definition gReadHashes : gio (list pystr) :=
  len <-- gReadVarInt maxsize ; grepeat (Z.to_nat len) gread_hash.
(** ECCurve.py:572-592 decode_from_reader *)
Definition gdecode_from_reader (c : curve) : gio point :=
  f <-- gReadByte ;
  if f =? 0 then gret Infinity
  else if (f =? 2) || (f =? 3) then
    data <-- gReadBytes 32 ; glift (decompress_from_curve c (coord data) (Z.land f 1))
  else if (f =? 4) || (f =? 6) || (f =? 7) then graise NotImplementedError
  else graise PlainException.

(** ** BinaryWriter *)

Definition gstream_write (v : pyval) : gio N :=
  match v with VBytes b | VBytearray b => dwrite b | _ => graise TypeError end.
(** BinaryWriter.py:74-86 WriteByte *)
Definition gWriteByte (value : pyval) : gio unit :=
  match value with
  | VBytes b => dwrite b ;; gret tt
  | VStr s => e <-- glift (utf8_encode s) ; (dwrite e ;; gret tt)
  | VInt z => if (0 <=? z) && (z <=? 255) then dwrite [z2b z] ;; gret tt else graise ValueError
  | _ => gret tt
  end.
(** BinaryWriter.py:88-104 WriteBytes *)
Definition gWriteBytes (value : pyval) (unhex : bool) : gio N :=
  if unhex then
    match unhexlify value with
    | Ok b => dwrite b
    | Raise BinasciiError => gstream_write value
    | Raise e => graise e
    end
  else gstream_write value.
(** BinaryWriter.py:106-118 pack, :120-130 WriteChar, :184-194 WriteBool *)
Definition gpack_int (e : endian) (sg : bool) (n : nat) (value : Z) : gio N :=
  b <-- glift (struct_pack_int e sg n value) ; gWriteBytes (VBytes b) false.
Definition gWriteChar (value : pyval) : gio N :=
  b <-- glift (struct_pack_char value) ; gWriteBytes (VBytes b) false.
Definition gWriteBool (value : pyval) : gio N := gWriteBytes (VBytes (struct_pack_bool value)) false.
(** BinaryWriter.py:132-143 WriteFloat, :145-156 WriteDouble *)
Definition gWriteFloat (value : num_arg) (e : endian) : gio N :=
  b <-- glift (do x <- as_double value; do y <- narrow x; Ok (z2bytes e 4 (bits_of FSingle y))) ;
  gWriteBytes (VBytes b) false.
Definition gWriteDouble (value : num_arg) (e : endian) : gio N :=
  b <-- glift (do x <- as_double value; Ok (z2bytes e 8 (bits_of FDouble x))) ;
  gWriteBytes (VBytes b) false.
(** UIntBase.py:38-39 Serialize, BinaryWriter.py:274-302 WriteUInt160, WriteUInt256 *)
Definition guint_Serialize (u : uint) : gio unit := gWriteBytes (VBytearray (u_data u)) true ;; gret tt.
Definition gWriteUInt160 (value : option uint) : gio unit :=
  match value with
  | Some u => match u_cls u with CUInt160 => guint_Serialize u | _ => graise PlainException end
  | None => graise PlainException
  end.
Definition gWriteUInt256 (value : option uint) : gio unit :=
  match value with
  | Some u => match u_cls u with CUInt256 => guint_Serialize u | _ => graise PlainException end
  | None => graise PlainException
  end.
(** BinaryWriter.py:304-339 WriteVarInt, :341-356 WriteVarBytes, :358-375 WriteVarString *)
Definition gWriteVarInt (value : pyval) (e : endian) : gio (option N) :=
  match as_int value with
  | None => graise TypeError
  | Some v =>
      if v <? 0 then graise PlainException
      else if v <? 253 then gWriteByte value ;; gret None
      else if v <=? 65535 then gWriteByte (VInt 253) ;; (n <-- gpack_int e false 2 v ; gret (Some n))
      else if v <=? 4294967295 then gWriteByte (VInt 254) ;; (n <-- gpack_int e false 4 v ; gret (Some n))
      else gWriteByte (VInt 255) ;; (n <-- gpack_int e false 8 v ; gret (Some n))
  end.
Definition gWriteVarBytes (value : pyval) (e : endian) : gio N :=
  length <-- glift (py_len value) ; (gWriteVarInt (VInt length) e ;; gWriteBytes value false).
Definition gWriteVarString (value : pyval) : gio unit :=
  value <-- glift (match value with VStr s => do b <- utf8_encode s; Ok (VBytes b) | v => Ok v end) ;
  length <-- glift (py_len value) ;
  match value with
  | VBytes b | VBytearray b =>
      let string := ascii_decode (hexlify b) in
      gWriteVarInt (VInt length) LE ;; (gWriteBytes (VStr string) true ;; gret tt)
  | _ => graise TypeError
  end.
(** BinaryWriter.py:377-394 WriteFixedString *)
Fixpoint gwrite_zeros (diff : nat) : gio unit :=
  match diff with O => gret tt | Datatypes.S d => gWriteByte (VInt 0) ;; gwrite_zeros d end.
Definition gWriteFixedString (value : pystr) (length : Z) : gio unit :=
  towrite <-- glift (utf8_encode value) ;
  let slen := zlen towrite in
  if slen >? length then graise PlainException
  else gWriteBytes (VBytes towrite) true ;; gwrite_zeros (Z.to_nat (length - slen)).
(** BinaryWriter.py:396-408 WriteSerializableArray (items serialized by [ser]), :410-435 the hash lists *)
Fixpoint gserialize_all {A} (ser : A -> gio unit) (l : list A) : gio unit :=
  match l with [] => gret tt | x :: r => ser x ;; gserialize_all ser r end.
Definition gWriteSerializableArray {A} (ser : A -> gio unit) (array : option (list A)) : gio unit :=
  match array with
  | None => gWriteByte (VInt 0)
  | Some l => gWriteVarInt (VInt (zlen l)) LE ;; gserialize_all ser l
  end.
Definition gwrite_reversed_hex (item : pyval) : gio unit :=
  ba <-- glift (unhexlify item) ; (gWriteBytes (VBytearray (rev ba)) true ;; gret tt).
Definition gWrite2000256List (arr : list pyval) : gio unit := gserialize_all gwrite_reversed_hex arr.
Definition gWriteHashes (arr : list pyval) : gio unit :=
  gWriteVarInt (VInt (zlen arr)) LE ;; gserialize_all gwrite_reversed_hex arr.
End Device.
