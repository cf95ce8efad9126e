(** * S_Endian: vocabulary for C113 *)
From Coq Require Import String Floats.SpecFloat.
From Verif Require Import M_Py M_Float M_UInt M_Writer M_Reader M_FloatIO M_Endian S_IO S_FloatRepr.

Definition blank (c : Z) : Prop := c = 32 \/ 9 <= c <= 13.
(** A text that stands for a byte order: an order character or none, and then only blanks. *)
Definition stands_for (t : pystr) (e : endian) : Prop := exists o ws, t = o ++ ws /\ Forall blank ws /\
  ((e = LE /\ (o = [] \/ o = str "<" \/ o = str "=" \/ o = str "@")) \/
   (e = BE /\ (o = str ">" \/ o = str "!"))).
(** ASCII without letters, digits and the question mark: nothing struct takes for an item or a count. *)
Definition punctuation (c : Z) : Prop := 0 <= c < 128 /\ c <> 63 /\
  ~ 48 <= c <= 57 /\ ~ 65 <= c <= 90 /\ ~ 97 <= c <= 122.
(** The text ends in digits that denote zero. *)
Definition ends_in_zero_count (t : pystr) : Prop := exists p ds, t = p ++ ds /\ ds <> [] /\
  Forall (fun c => c = 48) ds /\ (forall q c, p = q ++ [c] -> ~ 48 <= c <= 57).

(** The methods with one of the two documented values of [endian]. *)
Definition int_write (w : Z -> endian -> io Z) (v : num_arg) (e : endian) : io Z :=
  match v with AInt z => w z e | _ => iraise StructError end.
Definition write_as (c : wcode) (v : num_arg) (e : endian) : io Z :=
  match c with
  | Cf => WriteFloat v e | Cd => WriteDouble v e
  | Cb => int_write WriteInt8 v e | CB => int_write WriteUInt8 v e
  | Ch => int_write WriteInt16 v e | CH => int_write WriteUInt16 v e
  | Ci => int_write WriteInt32 v e | CI => int_write WriteUInt32 v e
  | Cq => int_write WriteInt64 v e | CQ => int_write WriteUInt64 v e
  end.
Definition read_as (c : wcode) (e : endian) : io unpacked :=
  match c with
  | Cf => x <-- ReadFloat e ; iret (RFloat x) | Cd => x <-- ReadDouble e ; iret (RFloat x)
  | Cb => x <-- ReadInt8 e ; iret (RInt x) | CB => x <-- ReadUInt8 e ; iret (RInt x)
  | Ch => x <-- ReadInt16 e ; iret (RInt x) | CH => x <-- ReadUInt16 e ; iret (RInt x)
  | Ci => x <-- ReadInt32 e ; iret (RInt x) | CI => x <-- ReadUInt32 e ; iret (RInt x)
  | Cq => x <-- ReadInt64 e ; iret (RInt x) | CQ => x <-- ReadUInt64 e ; iret (RInt x)
  end.
(** where a read of [n] bytes leaves the stream *)
Definition taken (n : Z) (s : stream) : stream := advance (Nat.min (Z.to_nat n) (length (remaining s))) s.
