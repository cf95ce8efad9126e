(** * S_Msg: whole messages and histories of reader / writer calls *)
From Verif Require Import M_Py M_UInt M_Writer M_Reader S_IO S_IO2.

(** ** Messages of mixed fields (C19) *)
Inductive kind : Type :=
| KInt (t : int_type) (e : endian)
| KBool | KByte | KChar
| KVarInt (max : Z) | KVarBytes (max : Z) | KVarString (max : Z)
| KFixedString (n : Z)
| KFixed8 | KUInt160 | KUInt256
| KHashes | KUInt256Array (max : Z).

Inductive value : Type :=
| XInt (z : Z) | XBool (b : bool) | XBytes (b : bytes) | XText (s : pystr)
| XUInt (u : uint) | XTexts (l : list pystr) | XUInts (l : list uint).

(** The API call that writes a value of a kind ... *)
Definition write_item (kv : kind * value) : io unit :=
  match kv with
  | (KInt t e, XInt z) => write_int t z e ;; iret tt
  | (KBool, XBool b) => WriteBool (VBool b) ;; iret tt
  | (KByte, XInt z) => WriteByte (VInt z)
  | (KChar, XBytes b) => WriteChar (VBytes b) ;; iret tt
  | (KVarInt _, XInt z) => WriteVarInt (VInt z) LE ;; iret tt
  | (KVarBytes _, XBytes b) => WriteVarBytes (VBytes b) LE ;; iret tt
  | (KVarString _, XText s) => WriteVarString (VStr s)
  | (KFixedString n, XText s) => WriteFixedString s n
  | (KFixed8, XInt z) => WriteFixed8 z ;; iret tt
  | (KUInt160, XUInt u) => WriteUInt160 (Some u)
  | (KUInt256, XUInt u) => WriteUInt256 (Some u)
  | (KHashes, XTexts l) => WriteHashes (map VStr l)
  | (KUInt256Array _, XUInts l) => WriteSerializableArray UInt256_klass (Some l)
  | _ => iraise TypeError
  end.
(** ... and the one that reads it. *)
Definition read_item (k : kind) : io value :=
  match k with
  | KInt t e => x <-- read_int t e ; iret (XInt x)
  | KBool => x <-- ReadBool ; iret (XBool x)
  | KByte => x <-- ReadByte ; iret (XInt x)
  | KChar => x <-- ReadChar ; iret (XBytes x)
  | KVarInt max => x <-- ReadVarInt max ; iret (XInt x)
  | KVarBytes max => x <-- ReadVarBytes max ; iret (XBytes x)
  | KVarString max => x <-- ReadVarString max ; iret (XBytes x)
  | KFixedString n => x <-- ReadFixedString n ; iret (XBytes x)
  | KFixed8 => x <-- ReadFixed8 ; iret (XInt x)
  | KUInt160 => x <-- ReadUInt160 ; iret (XUInt x)
  | KUInt256 => x <-- ReadUInt256 ; iret (XUInt x)
  | KHashes => x <-- ReadHashes ; iret (XTexts x)
  | KUInt256Array max => x <-- ReadSerializableArray UInt256_klass max ; iret (XUInts x)
  end.

(** Values the protocol can carry in a field of the kind. *)
Definition carriable (kv : kind * value) : Prop :=
  match kv with
  | (KInt t _, XInt z) => type_min t <= z <= type_max t
  | (KBool, XBool _) => True
  | (KByte, XInt z) => 0 <= z <= 255
  | (KChar, XBytes b) => length b = 1%nat
  | (KVarInt max, XInt z) => 0 <= z <= max /\ z < 2 ^ 64
  | (KVarBytes max, XBytes b) => zlen b <= max /\ zlen b <= maxsize
  | (KVarString max, XText s) => exists b, utf8_decode b = Some s /\ zlen b <= max /\ zlen b <= maxsize
  | (KFixedString n, XText s) =>
      exists b, utf8_decode b = Some s /\ zlen b <= n /\ n <= maxsize /\ ~ hex_text (map b2z b)
  | (KFixed8, XInt z) => - 2 ^ 63 <= z < 2 ^ 63
  | (KUInt160, XUInt u) => is_UInt160 u /\ ~ all_hex_digits (u_data u)
  | (KUInt256, XUInt u) => is_UInt256 u /\ ~ all_hex_digits (u_data u)
  | (KHashes, XTexts l) => zlen l <= maxsize /\
      Forall (fun t => hash_text t /\ forall d, wire_bytes t d -> ~ all_hex_digits d) l
  | (KUInt256Array max, XUInts l) => zlen l <= max /\ zlen l < 2 ^ 64 /\
      Forall (fun u => is_UInt256 u /\ ~ all_hex_digits (u_data u)) l
  | _ => False
  end.

(** What a written value looks like when read back: itself, except that texts
    come back as their UTF-8 bytes (fixed-length ones without trailing zeros) and
    hashes in lower case. *)
Definition comes_back (kv : kind * value) (y : value) : Prop :=
  match kv with
  | (KVarString _, XText s) => exists b, y = XBytes b /\ utf8_decode b = Some s
  | (KFixedString _, XText s) =>
      exists b r, y = XBytes r /\ utf8_decode b = Some s /\ without_trailing_zeros b r
  | (KHashes, XTexts l) => y = XTexts (map (map lower) l)
  | (_, x) => y = x
  end.

Fixpoint write_message (m : list (kind * value)) : io unit :=
  match m with [] => iret tt | kv :: r => write_item kv ;; write_message r end.
Fixpoint read_message (ks : list kind) : io (list value) :=
  match ks with [] => iret [] | k :: r => x <-- read_item k ; (l <-- read_message r ; iret (x :: l)) end.

(** ** Histories of reader calls (C20) *)
Inductive reader_call : Type :=
| RInt (t : int_type) (e : endian) | RByte | RByteRaw | RBytes (n : Z) | RSafeBytes (n : Z)
| RBool | RChar | RVarInt (max : Z) | RVarBytes (max : Z) | RString | RVarString (max : Z)
| RFixedString (n : Z) | RUInt160 | RUInt256 | RDeserialize (u : uint) | R2000256List | RHashes | RFixed8
| RArray (k : klass) (max : Z).
Definition do_read (c : reader_call) : io unit :=
  match c with
  | RInt t e => read_int t e ;; iret tt
  | RByte => ReadByte ;; iret tt
  | RByteRaw => ReadByte_raw ;; iret tt
  | RBytes n => ReadBytes n ;; iret tt
  | RSafeBytes n => SafeReadBytes n ;; iret tt
  | RBool => ReadBool ;; iret tt
  | RChar => ReadChar ;; iret tt
  | RVarInt max => ReadVarInt max ;; iret tt
  | RVarBytes max => ReadVarBytes max ;; iret tt
  | RString => ReadString ;; iret tt
  | RVarString max => ReadVarString max ;; iret tt
  | RFixedString n => ReadFixedString n ;; iret tt
  | RUInt160 => ReadUInt160 ;; iret tt
  | RUInt256 => ReadUInt256 ;; iret tt
  | RDeserialize u => uint_Deserialize u ;; iret tt
  | R2000256List => Read2000256List ;; iret tt
  | RHashes => ReadHashes ;; iret tt
  | RFixed8 => ReadFixed8 ;; iret tt
  | RArray k max => ReadSerializableArray k max ;; iret tt
  end.
(** A caller's history: exceptions are caught between calls. *)
Definition after_reads (l : list reader_call) (s : stream) : stream :=
  fold_left (fun s c => snd (do_read c s)) l s.

(** What a single well-behaved reader may do to the stream. *)
Definition only_reads {A} (m : io A) : Prop :=
  forall s, content (snd (m s)) = content s /\
            (position s <= position (snd (m s)) <= Nat.max (position s) (length (content s)))%nat.
(** User-supplied classes must themselves behave. *)
Definition call_well_behaved (c : reader_call) : Prop :=
  match c with RArray k _ => only_reads (k_deser k (k_new k)) | _ => True end.

(** ** Histories of writer calls (C21) *)
Inductive writer_call : Type :=
| WInt (t : int_type) (z : Z) (e : endian) | WByte (v : pyval) | WBytes (v : pyval) (unhex : bool)
| WChar (v : pyval) | WBool (v : pyval) | WVarInt (v : pyval) (e : endian) | WVarBytes (v : pyval) (e : endian)
| WVarString (v : pyval) | WFixedString (s : pystr) (n : Z) | WUInt160 (u : option uint) | WUInt256 (u : option uint)
| WSerialize (u : uint) | W2000256List (l : list pyval) | WHashes (l : list pyval) | WFixed8 (z : Z)
| WArray (k : klass) (l : option (list (k_obj k))).
Definition do_write (c : writer_call) : io unit :=
  match c with
  | WInt t z e => write_int t z e ;; iret tt
  | WByte v => WriteByte v
  | WBytes v u => WriteBytes v u ;; iret tt
  | WChar v => WriteChar v ;; iret tt
  | WBool v => WriteBool v ;; iret tt
  | WVarInt v e => WriteVarInt v e ;; iret tt
  | WVarBytes v e => WriteVarBytes v e ;; iret tt
  | WVarString v => WriteVarString v
  | WFixedString s n => WriteFixedString s n
  | WUInt160 u => WriteUInt160 u
  | WUInt256 u => WriteUInt256 u
  | WSerialize u => uint_Serialize u
  | W2000256List l => Write2000256List l
  | WHashes l => WriteHashes l
  | WFixed8 z => WriteFixed8 z ;; iret tt
  | WArray k l => WriteSerializableArray k l
  end.
Definition after_writes (l : list writer_call) (s : stream) : stream :=
  fold_left (fun s c => snd (do_write c s)) l s.
Definition only_appends {A} (m : io A) : Prop :=
  forall pre, exists d, snd (m (at_end pre)) = at_end (pre ++ d).
Definition write_well_behaved (c : writer_call) : Prop :=
  match c with WArray k _ => forall x, only_appends (k_ser k x) | _ => True end.
