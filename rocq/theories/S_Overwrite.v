(** * S_Overwrite: what a write in the middle of a stream (after a seek) does *)
From Verif Require Import M_Py M_Float M_FloatIO M_UInt M_Writer M_Reader S_IO S_IO2 S_Msg.

(** The byte stored at index [i], if any. *)
Definition byte_at (s : stream) (i : nat) : option byte := nth_error (content s) i.

(** [s'] is [s] after the bytes [d] have been written over it at its position: byte by byte. *)
Record overwritten (s : stream) (d : bytes) (s' : stream) : Prop := mkOverwritten {
  (* the position moves by the number of bytes written *)
  ow_position : position s' = (position s + length d)%nat;
  (* the bytes written are there *)
  ow_new : forall i, (i < length d)%nat -> byte_at s' (position s + i) = nth_error d i;
  (* every other byte of the stream is what it was *)
  ow_old : forall i, (i < length (content s))%nat -> (i < position s \/ position s + length d <= i)%nat ->
             byte_at s' i = byte_at s i;
  (* a gap between the old end and the position is filled with zeros, if anything is written *)
  ow_gap : forall i, d <> [] -> (length (content s) <= i < position s)%nat -> byte_at s' i = Some x00;
  (* nothing else is added and nothing is cut off *)
  ow_length : length (content s') =
                match d with [] => length (content s) | _ => Nat.max (length (content s)) (position s + length d) end }.

(** Every writer call with its return value ([None] for Python's None). *)
Inductive any_write : Type :=
| AWrite (c : writer_call)
| AFloat4 (v : num_arg) (e : endian) | AFloat8 (v : num_arg) (e : endian).
Definition returned (c : any_write) : io (option Z) :=
  match c with
  | AWrite (WInt t z e) => n <-- write_int t z e ; iret (Some n)
  | AWrite (WBytes v u) => n <-- WriteBytes v u ; iret (Some n)
  | AWrite (WChar v) => n <-- WriteChar v ; iret (Some n)
  | AWrite (WBool v) => n <-- WriteBool v ; iret (Some n)
  | AWrite (WVarInt v e) => WriteVarInt v e
  | AWrite (WVarBytes v e) => n <-- WriteVarBytes v e ; iret (Some n)
  | AWrite (WFixed8 z) => n <-- WriteFixed8 z ; iret (Some n)
  | AWrite c => do_write c ;; iret None
  | AFloat4 v e => n <-- WriteFloat v e ; iret (Some n)
  | AFloat8 v e => n <-- WriteDouble v e ; iret (Some n)
  end.

(** Outcome and bytes depend on the call alone, not on the stream it is made on. *)
Definition position_free {A} (m : io A) : Prop :=
  exists r d, forall s, exists s', m s = (r, s') /\ overwritten s d s'.
(** User-supplied classes must themselves behave. *)
Definition item_free (c : any_write) : Prop :=
  match c with AWrite (WArray k _) => forall x, position_free (k_ser k x) | _ => True end.

(** A history: exceptions are caught between calls. *)
Definition after_any (l : list any_write) (s : stream) : stream :=
  fold_left (fun s c => snd (returned c s)) l s.

(** stream.seek(n) *)
Definition seek (n : nat) (s : stream) : stream := mkStream (content s) n.

(** Kinds of field whose encodings all have the same length. *)
Definition fixed_width (k : kind) : Prop :=
  match k with
  | KInt _ _ | KBool | KByte | KChar | KFixedString _ | KFixed8 | KUInt160 | KUInt256 => True
  | _ => False
  end.
