(** * S_IO2: further vocabulary for the stream properties *)
From Verif Require Import M_Py M_UInt M_Writer M_Reader S_IO.

(** Width of the payload announced by the first byte of a variable-length integer. *)
Definition announced_width (b : byte) : nat :=
  match b with xfd => 2 | xfe => 4 | xff => 8 | _ => 0 end.
(** The number announced by first byte [b] followed by [r]. *)
Definition announced_value (b : byte) (r : bytes) : Z :=
  match announced_width b with O => b2z b | w => num LE (firstn w r) end.

(** [r] is [b] without its trailing zero bytes. *)
Definition without_trailing_zeros (b r : bytes) : Prop :=
  exists k, b = r ++ repeat x00 k /\ forall q, r <> q ++ [x00].

(** An object of class UInt160 / UInt256 as its constructor builds it. *)
Definition is_UInt160 (u : uint) : Prop :=
  u_cls u = CUInt160 /\ length (u_data u) = 20%nat /\ u_hash u = num LE (firstn 4 (u_data u)).
Definition is_UInt256 (u : uint) : Prop :=
  u_cls u = CUInt256 /\ length (u_data u) = 32%nat /\ u_hash u = num LE (firstn 4 (u_data u)).

(** All bytes of [b] are ASCII codes of hexadecimal digits. *)
Definition all_hex_digits (b : bytes) : Prop := Forall (fun x => hex_digit_code (b2z x)) b.

(** A 64-character hexadecimal text and the 32 bytes it stores on the wire
    (least significant byte first). *)
Definition hash_text (t : pystr) : Prop := length t = 64%nat /\ Forall hex_digit_code t.
Definition wire_bytes (t : pystr) (d : bytes) : Prop := hex_denotes t (rev d).

(** The run of objects a sequence of Deserialize calls yields until one raises. *)
Inductive run_until_bad (k : klass) : stream -> nat -> list (k_obj k) -> stream -> Prop :=
| run_done s : run_until_bad k s 0 [] s
| run_bad s n e s' : k_deser k (k_new k) s = (Raise e, s') -> run_until_bad k s (S n) [] s'
| run_more s n x s1 xs s2 : k_deser k (k_new k) s = (Ok x, s1) ->
    run_until_bad k s1 n xs s2 -> run_until_bad k s (S n) (x :: xs) s2.

(** Value of a text of binary digits. *)
Definition bits_value (l : pystr) : Z := fold_left (fun n c => 2 * n + (c - 48)) l 0.
Definition binary_text (l : pystr) : Prop := Forall (fun c => c = 48 \/ c = 49) l.
(** [t] writes n in binary without superfluous zeros. *)
Definition binary_of (n : Z) (t : pystr) : Prop :=
  binary_text t /\ bits_value t = n /\ (t = [48] \/ exists r, t = 49 :: r).

(** The values Python counts as false. *)
Definition false_value (v : pyval) : Prop :=
  v = VBool false \/ v = VInt 0 \/ v = VBig 0 \/ v = VNone \/ v = VStr [] \/ v = VBytes [] \/ v = VBytearray [].
