(** * M_Writer: neocore/IO/BinaryWriter.py (WriteFloat/WriteDouble: M_FloatIO) *)
From Coq Require Import String.
From Verif Require Import M_Py M_UInt.

(** BinaryWriter.py:21-30 swap32 *)
Definition swap32 (i : Z) : res Z :=
  do b <- struct_pack_int BE false 4 i;
  struct_unpack_int LE false 4 b.

(** bin(n): '0b...' / '-0b...' *)
Fixpoint bits_of_pos (p : positive) : pystr :=
  match p with
  | xH => [49]
  | xO q => bits_of_pos q ++ [48]
  | xI q => bits_of_pos q ++ [49]
  end.
Definition bin (n : Z) : pystr :=
  match n with
  | Z0 => str "0b0"
  | Zpos p => str "0b" ++ bits_of_pos p
  | Zneg p => str "-0b" ++ bits_of_pos p
  end.

(** BinaryWriter.py:33-44 convert_to_uint160 *)
Definition convert_to_uint160 (value : Z) : pystr := last_n 20 (bin (value + 2 ^ 20)).
(** BinaryWriter.py:47-58 convert_to_uint256 *)
Definition convert_to_uint256 (value : Z) : pystr := last_n 32 (bin (value + 2 ^ 32)).

(** stream.write(v) for a dynamically typed v: only bytes-like objects. *)
Definition stream_write (v : pyval) : io Z :=
  match v with
  | VBytes b | VBytearray b => bio_write b
  | _ => iraise TypeError
  end.

(** BinaryWriter.py:74-86 WriteByte.  Returns None.  `type(value) is int` is
    false for bool and BigInteger, which fall through. *)
Definition WriteByte (value : pyval) : io unit :=
  match value with
  | VBytes b => bio_write b ;; iret tt
  | VStr s => e <-- ilift (utf8_encode s) ; bio_write e ;; iret tt
  | VInt z =>
      if (0 <=? z) && (z <=? 255) then bio_write [z2b z] ;; iret tt
      else iraise ValueError
  | _ => iret tt
  end.

(** BinaryWriter.py:88-104 WriteBytes *)
Definition WriteBytes (value : pyval) (unhex : bool) : io Z :=
  if unhex then
    match unhexlify value with
    | Ok b => bio_write b
    | Raise BinasciiError => stream_write value
    | Raise e => iraise e
    end
  else stream_write value.

(** BinaryWriter.py:106-118 pack, for the integer formats *)
Definition pack_int (e : endian) (sg : bool) (n : nat) (value : Z) : io Z :=
  b <-- ilift (struct_pack_int e sg n value) ; WriteBytes (VBytes b) false.

(** BinaryWriter.py:120-130 WriteChar *)
Definition WriteChar (value : pyval) : io Z :=
  b <-- ilift (struct_pack_char value) ; WriteBytes (VBytes b) false.

(** BinaryWriter.py:184-194 WriteBool *)
Definition WriteBool (value : pyval) : io Z :=
  WriteBytes (VBytes (struct_pack_bool value)) false.

(** BinaryWriter.py:158-272 *)
Definition WriteInt8 (value : Z) (e : endian) : io Z := pack_int e true 1 value.
Definition WriteUInt8 (value : Z) (e : endian) : io Z := pack_int e false 1 value.
Definition WriteInt16 (value : Z) (e : endian) : io Z := pack_int e true 2 value.
Definition WriteUInt16 (value : Z) (e : endian) : io Z := pack_int e false 2 value.
Definition WriteInt32 (value : Z) (e : endian) : io Z := pack_int e true 4 value.
Definition WriteUInt32 (value : Z) (e : endian) : io Z := pack_int e false 4 value.
Definition WriteInt64 (value : Z) (e : endian) : io Z := pack_int e true 8 value.
Definition WriteUInt64 (value : Z) (e : endian) : io Z := pack_int e false 8 value.

(** UIntBase.py:38-39 Serialize *)
Definition uint_Serialize (u : uint) : io unit := WriteBytes (VBytearray (u_data u)) true ;; iret tt.

(** BinaryWriter.py:274-287 WriteUInt160; [None] is any non-UInt object *)
Definition WriteUInt160 (value : option uint) : io unit :=
  match value with
  | Some u => match u_cls u with CUInt160 => uint_Serialize u | _ => iraise PlainException end
  | None => iraise PlainException
  end.

(** BinaryWriter.py:289-302 WriteUInt256 *)
Definition WriteUInt256 (value : option uint) : io unit :=
  match value with
  | Some u => match u_cls u with CUInt256 => uint_Serialize u | _ => iraise PlainException end
  | None => iraise PlainException
  end.

(** BinaryWriter.py:304-339 WriteVarInt.  Returns None for the one-byte form. *)
Definition WriteVarInt (value : pyval) (e : endian) : io (option Z) :=
  match as_int value with
  | None => iraise TypeError
  | Some v =>
      if v <? 0 then iraise PlainException
      else if v <? 253 then WriteByte value ;; iret None
      else if v <=? 65535 then
        WriteByte (VInt 253) ;; (n <-- WriteUInt16 v e ; iret (Some n))
      else if v <=? 4294967295 then
        WriteByte (VInt 254) ;; (n <-- WriteUInt32 v e ; iret (Some n))
      else
        WriteByte (VInt 255) ;; (n <-- WriteUInt64 v e ; iret (Some n))
  end.

(** BinaryWriter.py:341-356 WriteVarBytes *)
Definition WriteVarBytes (value : pyval) (e : endian) : io Z :=
  length <-- ilift (py_len value) ;
  WriteVarInt (VInt length) e ;;
  WriteBytes value false.

(** BinaryWriter.py:358-375 WriteVarString (encoding='utf-8') *)
Definition WriteVarString (value : pyval) : io unit :=
  value <-- ilift (match value with
                   | VStr s => do b <- utf8_encode s; Ok (VBytes b)
                   | v => Ok v
                   end) ;
  length <-- ilift (py_len value) ;
  match value with
  | VBytes b | VBytearray b =>
      let string := ascii_decode (hexlify b) in
      WriteVarInt (VInt length) LE ;;
      WriteBytes (VStr string) true ;;
      iret tt
  | _ => iraise TypeError
  end.

(** BinaryWriter.py:392-394: while diff > 0: WriteByte(0); diff -= 1 *)
Fixpoint write_zeros (diff : nat) : io unit :=
  match diff with
  | O => iret tt
  | S d => WriteByte (VInt 0) ;; write_zeros d
  end.

(** BinaryWriter.py:377-394 WriteFixedString (value: str) *)
Definition WriteFixedString (value : pystr) (length : Z) : io unit :=
  towrite <-- ilift (utf8_encode value) ;
  let slen := zlen towrite in
  if slen >? length then iraise PlainException
  else
    WriteBytes (VBytes towrite) true ;;
    write_zeros (Z.to_nat (length - slen)).

(** A class usable with WriteSerializableArray / ReadSerializableArray:
    constructor without arguments, Serialize(writer), Deserialize(reader) (which
    updates the object in place; here it returns the new object). *)
Record klass := mkKlass {
  k_obj : Type;
  k_new : k_obj;
  k_ser : k_obj -> io unit;
  k_deser : k_obj -> io k_obj }.

(** for item in array: item.Serialize(self) *)
Fixpoint serialize_all {A} (ser : A -> io unit) (l : list A) : io unit :=
  match l with
  | [] => iret tt
  | x :: r => ser x ;; serialize_all ser r
  end.

(** BinaryWriter.py:396-408 WriteSerializableArray; [None] is Python None *)
Definition WriteSerializableArray (k : klass) (array : option (list (k_obj k))) : io unit :=
  match array with
  | None => WriteByte (VInt 0)
  | Some l =>
      WriteVarInt (VInt (zlen l)) LE ;;
      serialize_all (k_ser k) l
  end.

(** loop body of BinaryWriter.py:417-420 and 431-435 *)
Definition write_reversed_hex (item : pyval) : io unit :=
  ba <-- ilift (unhexlify item) ;
  WriteBytes (VBytearray (rev ba)) true ;;
  iret tt.

(** BinaryWriter.py:410-420 Write2000256List *)
Definition Write2000256List (arr : list pyval) : io unit :=
  serialize_all write_reversed_hex arr.

(** BinaryWriter.py:422-435 WriteHashes *)
Definition WriteHashes (arr : list pyval) : io unit :=
  WriteVarInt (VInt (zlen arr)) LE ;;
  serialize_all write_reversed_hex arr.

(** BinaryWriter.py:437-450 WriteFixed8; the argument is the Fixed8's integer
    [value] attribute *)
Definition WriteFixed8 (value : Z) : io Z := WriteInt64 value LE.
