(** * S_IO: vocabulary for the stream properties (specification, no proofs)

    Only [stream], [io], [res] (the shape of a call: state in, outcome and state
    out) and the names of the API functions come from the model. *)
From Verif Require Import M_Py M_UInt M_Writer M_Reader.

(** A stream positioned at its end. *)
Definition at_end (c : bytes) : stream := mkStream c (length c).
(** What a reader positioned in [s] still has in front of it. *)
Definition remaining (s : stream) : bytes := skipn (position s) (content s).
(** The same stream [n] bytes further on. *)
Definition advance (n : nat) (s : stream) : stream := mkStream (content s) (position s + n).

(** [w] succeeds at the end of every stream, appends exactly [enc], returns [ret]. *)
Definition writes {R} (w : io R) (ret : R) (enc : bytes) : Prop :=
  forall pre, w (at_end pre) = (Ok ret, at_end (pre ++ enc)).
(** Wherever the next bytes are [enc], [r] returns [a] and stops right after them,
    whatever follows. *)
Definition reads {A} (r : io A) (enc : bytes) (a : A) : Prop :=
  forall s rest, remaining s = enc ++ rest -> r s = (Ok a, advance (length enc) s).
(** [m] raises [e] and leaves the stream as it was. *)
Definition refuses {A} (m : io A) (e : exn) : Prop := forall s, m s = (Raise e, s).

(** Numbers denoted by digit strings in base 256, least / most significant first. *)
Definition num_le (l : bytes) : Z := fold_right (fun b n => b2z b + 256 * n) 0 l.
Definition num_be (l : bytes) : Z := fold_left (fun n b => 256 * n + b2z b) l 0.
Definition num (e : endian) (l : bytes) : Z := match e with LE => num_le l | BE => num_be l end.

(** The eight integer types of the API. *)
Inductive int_type := I8 | U8 | I16 | U16 | I32 | U32 | I64 | U64.
Definition all_int_types := [I8; U8; I16; U16; I32; U32; I64; U64].
Definition type_width (t : int_type) : nat :=
  match t with I8 | U8 => 1 | I16 | U16 => 2 | I32 | U32 => 4 | I64 | U64 => 8 end.
Definition type_min (t : int_type) : Z :=
  match t with
  | I8 => -128 | I16 => -32768 | I32 => -2147483648 | I64 => -9223372036854775808
  | _ => 0
  end.
Definition type_max (t : int_type) : Z :=
  match t with
  | I8 => 127 | U8 => 255 | I16 => 32767 | U16 => 65535
  | I32 => 2147483647 | U32 => 4294967295
  | I64 => 9223372036854775807 | U64 => 18446744073709551615
  end.
(** The API functions of each type. *)
Definition write_int (t : int_type) : Z -> endian -> io Z :=
  match t with
  | I8 => WriteInt8 | U8 => WriteUInt8 | I16 => WriteInt16 | U16 => WriteUInt16
  | I32 => WriteInt32 | U32 => WriteUInt32 | I64 => WriteInt64 | U64 => WriteUInt64
  end.
Definition read_int (t : int_type) : endian -> io Z :=
  match t with
  | I8 => ReadInt8 | U8 => ReadUInt8 | I16 => ReadInt16 | U16 => ReadUInt16
  | I32 => ReadInt32 | U32 => ReadUInt32 | I64 => ReadInt64 | U64 => ReadUInt64
  end.

(** [enc] is the two's complement encoding of [v] for type [t] in byte order [e]. *)
Definition encodes (t : int_type) (e : endian) (v : Z) (enc : bytes) : Prop :=
  length enc = type_width t /\
  (num e enc = v \/ (v < 0 /\ num e enc = v + 256 ^ Z.of_nat (type_width t))).

(** The protocol's variable-length integer. *)
Inductive varint (e : endian) : Z -> bytes -> Prop :=
| varint1 v b : 0 <= v < 253 -> b2z b = v -> varint e v [b]
| varint3 v d : 253 <= v < 2 ^ 16 -> length d = 2%nat -> num e d = v -> varint e v (xfd :: d)
| varint5 v d : 2 ^ 16 <= v < 2 ^ 32 -> length d = 4%nat -> num e d = v -> varint e v (xfe :: d)
| varint9 v d : 2 ^ 32 <= v < 2 ^ 64 -> length d = 8%nat -> num e d = v -> varint e v (xff :: d).

(** Hexadecimal text: even length, digits 0-9 a-f A-F only. *)
Definition hex_digit_code (c : Z) : Prop :=
  48 <= c <= 57 \/ 97 <= c <= 102 \/ 65 <= c <= 70.
Definition hex_text (l : list Z) : Prop :=
  Nat.Even (length l) /\ Forall hex_digit_code l.
(** [b] is the byte string whose hexadecimal text is [l] (either letter case). *)
Definition lower (c : Z) : Z := if (65 <=? c) && (c <=? 90) then c + 32 else c.
Definition hex_denotes (l : list Z) (b : bytes) : Prop := map lower l = hex b.

(** Strict UTF-8 decoding (Unicode standard, table 3-7), independent of the encoder. *)
Definition cont (b : byte) : option Z :=
  let z := b2z b in if (128 <=? z) && (z <? 192) then Some (z - 128) else None.
Fixpoint utf8_decode (l : bytes) : option pystr :=
  match l with
  | [] => Some []
  | b0 :: r0 =>
      let z := b2z b0 in
      if z <? 128 then option_map (cons z) (utf8_decode r0)
      else if z <? 194 then None
      else if z <? 224 then
        match r0 with
        | b1 :: r1 =>
            match cont b1 with
            | Some c1 => option_map (cons ((z - 192) * 64 + c1)) (utf8_decode r1)
            | None => None
            end
        | [] => None
        end
      else if z <? 240 then
        match r0 with
        | b1 :: b2 :: r2 =>
            match cont b1, cont b2 with
            | Some c1, Some c2 =>
                let c := (z - 224) * 4096 + c1 * 64 + c2 in
                if (c <? 2048) || ((55296 <=? c) && (c <=? 57343)) then None
                else option_map (cons c) (utf8_decode r2)
            | _, _ => None
            end
        | _ => None
        end
      else if z <? 245 then
        match r0 with
        | b1 :: b2 :: b3 :: r3 =>
            match cont b1, cont b2, cont b3 with
            | Some c1, Some c2, Some c3 =>
                let c := (z - 240) * 262144 + c1 * 4096 + c2 * 64 + c3 in
                if (c <? 65536) || (1114111 <? c) then None
                else option_map (cons c) (utf8_decode r3)
            | _, _, _ => None
            end
        | _ => None
        end
      else None
  end.

(** A text made of Unicode scalar values (no lone surrogates). *)
Definition scalar (c : Z) : Prop := (0 <= c < 55296) \/ (57343 < c <= 1114111).
Definition scalar_text (s : pystr) : Prop := Forall scalar s.
(** Any Python str. *)
Definition code_point (c : Z) : Prop := 0 <= c <= 1114111.
