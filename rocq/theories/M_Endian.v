(** * M_Endian: the [endian] argument of BinaryWriter and BinaryReader as any text

    M_Writer, M_Reader and M_FloatIO take [endian] as one of '<' and '>'.  The code puts whatever
    text it is given in front of the format letter and hands that to struct.pack / struct.unpack, so
    this file models struct's format language (CPython's _struct.c, prepare_s; 64-bit little-endian
    machine).  Not modelled: the value of an item other than the method's own letter and 's', which
    is only reached by texts ending in a zero count ('b0'); memory exhaustion by giant pad counts. *)
From Coq Require Import Floats.SpecFloat.
From Verif Require Import M_Py M_Float M_UInt M_Writer M_Reader M_FloatIO.

(** The letters of BinaryWriter.py:143-272 and BinaryReader.py:121-229: f d b B h H i I q Q *)
Inductive wcode : Set := Cf | Cd | Cb | CB | Ch | CH | Ci | CI | Cq | CQ.
Definition letter (c : wcode) : Z :=
  match c with Cf => 102 | Cd => 100 | Cb => 98 | CB => 66 | Ch => 104 | CH => 72 | Ci => 105 | CI => 73 | Cq => 113 | CQ => 81 end.
Definition width (c : wcode) : Z :=
  match c with Cb | CB => 1 | Ch | CH => 2 | Ci | CI | Cf => 4 | Cq | CQ | Cd => 8 end.

(** struct: the byte order character (whichtable); without one, and with '@', native sizes and
    alignment *)
Inductive order : Set := Native | Std (e : endian).
Definition split_order (f : pystr) : order * pystr :=
  match f with
  | [] => (Native, f)
  | c :: r =>
      if c =? 60 then (Std LE, r)                          (* < *)
      else if (c =? 62) || (c =? 33) then (Std BE, r)      (* > ! *)
      else if c =? 61 then (Std LE, r)                     (* = *)
      else if c =? 64 then (Native, r)                     (* @ *)
      else (Native, f)
  end.
Definition order_endian (o : order) : endian := match o with Native => LE | Std e => e end.

(** struct: size and alignment of the item letters (getentry): x b B c s p ?, h H e, i I f, q Q d, l L, n N P *)
Definition entry (o : order) (c : Z) : option (Z * Z) :=
  let aligned (n : Z) := Some (n, match o with Native => n | Std _ => 1 end) in
  if existsb (Z.eqb c) [120; 98; 66; 99; 115; 112; 63] then aligned 1
  else if existsb (Z.eqb c) [104; 72; 101] then aligned 2
  else if existsb (Z.eqb c) [105; 73; 102] then aligned 4
  else if existsb (Z.eqb c) [113; 81; 100] then aligned 8
  else if existsb (Z.eqb c) [108; 76] then (match o with Native => aligned 8 | Std _ => aligned 4 end)
  else if existsb (Z.eqb c) [110; 78; 80] then (match o with Native => aligned 8 | Std _ => None end)
  else None.
Definition is_space (c : Z) : bool := (c =? 32) || ((9 <=? c) && (c <=? 13)).
Definition is_digit (c : Z) : bool := (48 <=? c) && (c <=? 57).
(** the next multiple of the alignment *)
Definition align (al size : Z) : Z := ((size + al - 1) / al) * al.

(** struct: prepare_s.  An item is its letter, its count and its offset; the other component is the
    total size.  [cnt] is the count read so far. *)
Record item : Set := mkItem { it_code : Z; it_count : Z; it_off : Z }.
Fixpoint items (o : order) (f : pystr) (cnt : option Z) (size : Z) : res (list item * Z) :=
  match f with
  | [] => match cnt with None => Ok ([], size) | Some _ => Raise StructError end
  | c :: r =>
      let one (n : Z) :=
        match entry o c with
        | None => Raise StructError
        | Some (sz, al) =>
            let off := align al size in
            if (maxsize <? off) || ((maxsize - off) / sz <? n) then Raise StructError
            else do lt <- items o r None (off + n * sz); Ok (mkItem c n off :: fst lt, snd lt)
        end in
      match cnt with
      | None => if is_space c then items o r None size
                else if is_digit c then items o r (Some (c - 48)) size
                else one 1
      | Some n => if is_digit c then
                    (if maxsize <? 10 * n + (c - 48) then Raise StructError else items o r (Some (10 * n + (c - 48))) size)
                  else one n
      end
  end.
(** the text must be ASCII *)
Definition prepare (f : pystr) : res (order * (list item * Z)) :=
  if existsb (fun c => 127 <? c) f then Raise UnicodeError
  else let (o, r) := split_order f in do lt <- items o r None 0; Ok (o, lt).

(** how many values an item takes or gives: x none, s and p one, the others as many as counted *)
Definition takes (i : item) : Z :=
  if it_code i =? 120 then 0
  else if (it_code i =? 115) || (it_code i =? 112) then 1
  else it_count i.
Definition values_of (l : list item) : Z := fold_right (fun i n => takes i + n) 0 l.
(** the item of the first value, and whether it is the last item of the format *)
Fixpoint first_value (l : list item) : option (item * bool) :=
  match l with
  | [] => None
  | i :: r => if takes i =? 0 then first_value r else Some (i, match r with [] => true | _ => false end)
  end.

(** the bytes of one value: int formats (struct_pack_int), f and d as in M_FloatIO *)
Definition pack_letter (c : wcode) (v : num_arg) (e : endian) : res bytes :=
  let int (sg : bool) (n : nat) := match v with AInt z => struct_pack_int e sg n z | _ => Raise StructError end in
  match c with
  | Cb => int true 1%nat | CB => int false 1%nat | Ch => int true 2%nat | CH => int false 2%nat
  | Ci => int true 4%nat | CI => int false 4%nat | Cq => int true 8%nat | CQ => int false 8%nat
  | Cf => do x <- as_double v; do y <- narrow x; Ok (z2bytes e 4 (bits_of FSingle y))
  | Cd => do x <- as_double v; Ok (z2bytes e 8 (bits_of FDouble x))
  end.

(** struct.pack(endian + letter, value); None is a format whose only value is not the method's letter *)
Definition struct_pack_text (c : wcode) (endian : pystr) (v : num_arg) : option (res bytes) :=
  match prepare (endian ++ [letter c]) with
  | Raise x => Some (Raise x)
  | Ok (o, (l, size)) =>
      if negb (values_of l =? 1) then Some (Raise StructError)
      else match first_value l with
           | Some (i, true) => Some (do b <- pack_letter c v (order_endian o);
                                     Ok (repeat x00 (Z.to_nat (it_off i)) ++ b))
           | _ => None
           end
  end.
(** BinaryWriter.py:106-118 pack, :132-156 WriteFloat/WriteDouble, :158-182, :196-272 WriteInt8 ... WriteUInt64 *)
Definition write_text (c : wcode) (v : num_arg) (endian : pystr) : option (io Z) :=
  option_map (fun r => b <-- ilift r ; WriteBytes (VBytes b) false) (struct_pack_text c endian v).

(** the values struct.unpack can give here; [ROutside] is the value of an item of another letter *)
Inductive unpacked : Type := RInt (z : Z) | RFloat (f : pyfloat) | RBytes (b : bytes) | ROutside.
Definition unpack_letter (c : wcode) (e : endian) (b : bytes) : unpacked :=
  match c with
  | Cb | Ch | Ci | Cq => RInt (int_from_bytes e true b)
  | CB | CH | CI | CQ => RInt (int_from_bytes e false b)
  | Cf => RFloat (widen (of_bits FSingle (bytes2z e b)))
  | Cd => RFloat (of_bits FDouble (bytes2z e b))
  end.
(** struct.unpack(endian + letter, data)[0] *)
Definition struct_unpack_text (c : wcode) (endian : pystr) (data : bytes) : res unpacked :=
  do p <- prepare (endian ++ [letter c]);
  let '(o, (l, size)) := p in
  if negb (size =? zlen data) then Raise StructError
  else match first_value l with
       | None => Raise IndexError
       | Some (i, true) => Ok (unpack_letter c (order_endian o) (slice (Z.to_nat (it_off i)) (Z.to_nat (it_off i + width c)) data))
       | Some (i, false) =>
           if it_code i =? 115 then Ok (RBytes (slice (Z.to_nat (it_off i)) (Z.to_nat (it_off i + it_count i)) data))
           else Ok ROutside
       end.
(** BinaryReader.py:32-44 unpack, :111-133 ReadFloat/ReadDouble, :135-229 ReadInt8 ... ReadUInt64:
    the bytes are taken from the stream before struct.unpack looks at the format *)
Definition read_text (c : wcode) (endian : pystr) : io unpacked :=
  b <-- bio_read (width c) ; ilift (struct_unpack_text c endian b).

(** BinaryWriter.py:304-339 WriteVarInt(value, endian) *)
Definition WriteVarInt_text (value : pyval) (endian : pystr) : option (io (option Z)) :=
  match as_int value with
  | None => Some (iraise TypeError)
  | Some v =>
      let marked (m : Z) (c : wcode) :=
        option_map (fun w : io Z => WriteByte (VInt m) ;; (n <-- w ; iret (Some n))) (write_text c (AInt v) endian) in
      if v <? 0 then Some (iraise PlainException)
      else if v <? 253 then Some (WriteByte value ;; iret None)
      else if v <=? 65535 then marked 253 CH
      else if v <=? 4294967295 then marked 254 CI
      else marked 255 CQ
  end.
(** BinaryWriter.py:341-356 WriteVarBytes(value, endian) *)
Definition WriteVarBytes_text (value : pyval) (endian : pystr) : option (io Z) :=
  match py_len value with
  | Raise x => Some (iraise x)
  | Ok n => option_map (fun w : io (option Z) => w ;; WriteBytes value false) (WriteVarInt_text (VInt n) endian)
  end.
