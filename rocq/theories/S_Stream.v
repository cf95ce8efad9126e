(** * S_Stream: streams that misbehave, and the calls made on them (C93, C94) *)
From Coq Require Import Floats.SpecFloat.
From Verif Require Import M_Py M_Float M_UInt M_Writer M_Reader M_FloatIO M_ECCurve M_Stream S_IO.

(** ** Reader calls *)
Inductive rcall : Type :=
| GInt (t : int_type) (e : endian) | GBool | GChar | GSafeBytes (n : Z) | GString
| GFixed8 | GUInt160 | GUInt256 | GFloat (e : endian) | GDouble (e : endian)
| GByte | GBytes (n : Z) | GVarInt (max : Z) | GVarBytes (max : Z) | GVarString (max : Z)
| GFixedString (n : Z) | GHashes | GUInt256Array (max : Z) | GPoint (c : curve).
Inductive rval : Type :=
| VZ (z : Z) | VTruth (b : bool) | VData (b : bytes) | VReal (f : pyfloat)
| VUInt (u : uint) | VTexts (l : list pystr) | VUInts (l : list uint) | VPoint (P : point).

Definition gmap {S A B} (f : A -> B) (m : S -> res A * S) : S -> res B * S :=
  fun s => match m s with (Ok a, s') => (Ok (f a), s') | (Raise e, s') => (Raise e, s') end.
Definition type_signed (t : int_type) : bool := match t with I8 | I16 | I32 | I64 => true | _ => false end.
(** the API call, over a stream object whose read method is [dread] *)
Definition gread {S} (dread : Z -> S -> res bytes * S) (c : rcall) : S -> res rval * S :=
  match c with
  | GInt t e => gmap VZ (gunpack_int dread e (type_signed t) (type_width t))
  | GBool => gmap VTruth (gReadBool dread)
  | GChar => gmap VData (gReadChar dread)
  | GSafeBytes n => gmap VData (gSafeReadBytes dread n)
  | GString => gmap VData (gReadString dread)
  | GFixed8 => gmap VZ (gunpack_int dread LE true 8)
  | GUInt160 => gmap VUInt (gReadUInt160 dread)
  | GUInt256 => gmap VUInt (gReadUInt256 dread)
  | GFloat e => gmap VReal (gReadFloat dread e)
  | GDouble e => gmap VReal (gReadDouble dread e)
  | GByte => gmap VZ (gReadByte dread)
  | GBytes n => gmap VData (gReadBytes dread n)
  | GVarInt max => gmap VZ (gReadVarInt dread max)
  | GVarBytes max => gmap VData (gReadVarBytes dread max)
  | GVarString max => gmap VData (gReadVarString dread max)
  | GFixedString n => gmap VData (gReadFixedString dread n)
  | GHashes => gmap VTexts (gReadHashes dread)
  | GUInt256Array max => gmap VUInts (gReadSerializableArray dread (guint_Deserialize dread (k_new UInt256_klass)) max)
  | GPoint c => gmap VPoint (gdecode_from_reader dread c)
  end.
(** the same call over BytesIO *)
Definition read_call (c : rcall) : stream -> res rval * stream :=
  match c with
  | GInt t e => gmap VZ (read_int t e)
  | GBool => gmap VTruth ReadBool
  | GChar => gmap VData ReadChar
  | GSafeBytes n => gmap VData (SafeReadBytes n)
  | GString => gmap VData ReadString
  | GFixed8 => gmap VZ ReadFixed8
  | GUInt160 => gmap VUInt ReadUInt160
  | GUInt256 => gmap VUInt ReadUInt256
  | GFloat e => gmap VReal (ReadFloat e)
  | GDouble e => gmap VReal (ReadDouble e)
  | GByte => gmap VZ ReadByte
  | GBytes n => gmap VData (ReadBytes n)
  | GVarInt max => gmap VZ (ReadVarInt max)
  | GVarBytes max => gmap VData (ReadVarBytes max)
  | GVarString max => gmap VData (ReadVarString max)
  | GFixedString n => gmap VData (ReadFixedString n)
  | GHashes => gmap VTexts ReadHashes
  | GUInt256Array max => gmap VUInts (ReadSerializableArray UInt256_klass max)
  | GPoint c => gmap VPoint (decode_from_reader c)
  end.

(** a whole message: the calls in order, up to the first exception *)
Fixpoint in_order {S C A} (run : C -> S -> res A * S) (l : list C) (s : S) : res (list A) * S :=
  match l with
  | [] => (Ok [], s)
  | c :: r =>
      match run c s with
      | (Ok v, s') =>
          match in_order run r s' with
          | (Ok vs, s'') => (Ok (v :: vs), s'')
          | (Raise e, s'') => (Raise e, s'')
          end
      | (Raise e, s') => (Raise e, s')
      end
  end.

(** The calls that check how much they got, and the others with what they return for no data. *)
Definition checked (c : rcall) : Prop :=
  match c with
  | GInt _ _ | GBool | GChar | GString | GFixed8 | GUInt160 | GUInt256 | GFloat _ | GDouble _ => True
  | GSafeBytes n => 0 <= n
  | _ => False
  end.
Definition nothing (c : rcall) : rval :=
  match c with
  | GByte | GVarInt _ => VZ 0
  | GHashes => VTexts []
  | GUInt256Array _ => VUInts []
  | GPoint _ => VPoint Infinity
  | _ => VData []
  end.

(** A stream over the same data whose next reads follow a schedule: served in full, served with at
    most k bytes, or failing with an exception (a timeout, say) without consuming anything.  After
    the schedule reads are served in full. *)
Inductive event := Full | Short (k : nat) | Fail (e : exn).
Definition scheduled : Type := stream * list event.
Definition sched_read (n : Z) (st : scheduled) : res bytes * scheduled :=
  let (s, evs) := st in
  match evs with
  | [] => let (r, s') := bio_read n s in (r, (s', []))
  | Full :: l => let (r, s') := bio_read n s in (r, (s', l))
  | Fail e :: l => (Raise e, (s, l))
  | Short k :: l =>
      match bio_read n s with
      | (Ok b, _) => (Ok (firstn k b), (mkStream (content s) (position s + length (firstn k b)), l))
      | (Raise e, s') => (Raise e, (s', l))
      end
  end.

(** ** Writer calls *)
Inductive wcall : Type :=
| PInt (t : int_type) (z : Z) (e : endian) | PByte (v : pyval) | PBytes (v : pyval) (unhex : bool)
| PChar (v : pyval) | PBool (v : pyval) | PFloat (v : num_arg) (e : endian) | PDouble (v : num_arg) (e : endian)
| PVarInt (v : pyval) (e : endian) | PVarBytes (v : pyval) (e : endian)
| PVarString (v : pyval) | PFixedString (s : pystr) (n : Z) | PUInt160 (u : option uint) | PUInt256 (u : option uint)
| P2000256List (l : list pyval) | PHashes (l : list pyval) | PFixed8 (z : Z) | PUIntArray (l : option (list uint)).
(** over a stream object whose write method is [dwrite]; the return value is dropped *)
Definition gwrite {S N} (dwrite : bytes -> S -> res N * S) (c : wcall) : S -> res unit * S :=
  let drop {A} (m : S -> res A * S) := gmap (fun _ => tt) m in
  match c with
  | PInt t z e => drop (gpack_int dwrite e (type_signed t) (type_width t) z)
  | PByte v => gWriteByte dwrite v
  | PBytes v u => drop (gWriteBytes dwrite v u)
  | PChar v => drop (gWriteChar dwrite v)
  | PBool v => drop (gWriteBool dwrite v)
  | PFloat v e => drop (gWriteFloat dwrite v e)
  | PDouble v e => drop (gWriteDouble dwrite v e)
  | PVarInt v e => drop (gWriteVarInt dwrite v e)
  | PVarBytes v e => drop (gWriteVarBytes dwrite v e)
  | PVarString v => gWriteVarString dwrite v
  | PFixedString s n => gWriteFixedString dwrite s n
  | PUInt160 u => gWriteUInt160 dwrite u
  | PUInt256 u => gWriteUInt256 dwrite u
  | P2000256List l => gWrite2000256List dwrite l
  | PHashes l => gWriteHashes dwrite l
  | PFixed8 z => drop (gpack_int dwrite LE true 8 z)
  | PUIntArray l => gWriteSerializableArray dwrite (guint_Serialize dwrite) l
  end.
(** the same call over BytesIO *)
Definition write_call (c : wcall) : stream -> res unit * stream :=
  let drop {A} (m : io A) := gmap (fun _ => tt) m in
  match c with
  | PInt t z e => drop (write_int t z e)
  | PByte v => WriteByte v
  | PBytes v u => drop (WriteBytes v u)
  | PChar v => drop (WriteChar v)
  | PBool v => drop (WriteBool v)
  | PFloat v e => drop (WriteFloat v e)
  | PDouble v e => drop (WriteDouble v e)
  | PVarInt v e => drop (WriteVarInt v e)
  | PVarBytes v e => drop (WriteVarBytes v e)
  | PVarString v => WriteVarString v
  | PFixedString s n => WriteFixedString s n
  | PUInt160 u => WriteUInt160 u
  | PUInt256 u => WriteUInt256 u
  | P2000256List l => Write2000256List l
  | PHashes l => WriteHashes l
  | PFixed8 z => drop (WriteFixed8 z)
  | PUIntArray l => WriteSerializableArray UInt256_klass l
  end.

(** the calls of a message in order, up to the first exception *)
Fixpoint write_all {S} (run : wcall -> S -> res unit * S) (l : list wcall) (s : S) : res unit * S :=
  match l with
  | [] => (Ok tt, s)
  | c :: r => match run c s with (Ok _, s') => write_all run r s' | (Raise e, s') => (Raise e, s') end
  end.

(** A stream that accepts at most the given number of bytes of each write and returns how many
    (raw, unbuffered streams do); after the list it accepts everything. *)
Definition lossy_write (b : bytes) (st : bytes * list nat) : res Z * (bytes * list nat) :=
  let (d, ks) := st in
  match ks with
  | [] => (Ok (zlen b), (d ++ b, []))
  | k :: l => (Ok (zlen (firstn k b)), (d ++ firstn k b, l))
  end.
(** A stream that fails with the exception [e] once [room] bytes have been stored (disk full, crash);
    a write that does not fit stores what fits. *)
Definition crash_write (e : exn) (b : bytes) (st : bytes * nat) : res Z * (bytes * nat) :=
  let (d, room) := st in
  if (length b <=? room)%nat then (Ok (zlen b), (d ++ b, (room - length b)%nat))
  else (Raise e, (d ++ firstn room b, 0%nat)).

(** the writes of a call one after the other, then its own outcome [r]; an exception of the stream ends it *)
Fixpoint feed {S N} (dwrite : bytes -> S -> res N * S) (chunks : list bytes) (r : res unit) (s : S) : res unit * S :=
  match chunks with
  | [] => (r, s)
  | b :: l => match dwrite b s with (Ok _, s') => feed dwrite l r s' | (Raise e, s') => (Raise e, s') end
  end.
