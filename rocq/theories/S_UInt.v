(** * S_UInt: vocabulary for C28-C34 *)
From Coq Require Import String.
From Verif Require Import M_Py M_UInt M_UIntHeap S_IO S_IO2.

(** [t] is [s] without one optional leading "0x". *)
Definition unprefixed (s t : pystr) : Prop :=
  s = str "0x" ++ t \/ (s = t /\ forall r, s <> str "0x" ++ r).

(** The number a text of lower-case hexadecimal digits denotes, most significant first. *)
Definition lower_hex_digit (c : Z) : Prop := 48 <= c <= 57 \/ 97 <= c <= 102.
Definition hex_number (l : pystr) : Z :=
  fold_left (fun n c => 16 * n + (if c <=? 57 then c - 48 else c - 87)) l 0.

(** The numeric value of a UInt (its bytes are little endian). *)
Definition value_of (u : uint) : Z := num LE (u_data u).

(** -1, 0, 1 *)
Definition sign_of (c : comparison) : Z := match c with Lt => -1 | Eq => 0 | Gt => 1 end.

(** A history step that does not change a bytearray some UInt is holding. *)
Definition leaves_uints_alone (w : world) (op : uop) : Prop :=
  match op with
  | Mutate loc _ => forall o, In o (objs w) -> o_data o <> DCell loc
  | _ => True
  end.
(** Every step of the history is of that kind when it happens. *)
Fixpoint clean_history (w : world) (l : list uop) : Prop :=
  match l with
  | [] => True
  | op :: r => leaves_uints_alone w op /\ clean_history (ustep w op) r
  end.

(** what bytearray.fromhex takes: pairs of hexadecimal digits, with ASCII blanks between them *)
Definition ascii_blank (c : Z) : Prop := c = 32 \/ 9 <= c <= 13.
Inductive spaced_pairs : pystr -> Prop :=
| sp_nil : spaced_pairs []
| sp_blank c t : ascii_blank c -> spaced_pairs t -> spaced_pairs (c :: t)
| sp_pair a b t : hex_digit_code a -> hex_digit_code b -> spaced_pairs t -> spaced_pairs (a :: b :: t).
(** the texts which are not well-formed: which exception each of them raises *)
Definition parse_refused (parse : pystr -> res uint) (digits : nat) : Prop :=
  forall s t, unprefixed s t ->
    (length t <> digits -> parse s = Raise PlainException) /\
    (length t = digits -> ~ spaced_pairs t -> parse s = Raise ValueError) /\
    (length t = digits -> spaced_pairs t -> ~ Forall hex_digit_code t -> parse s = Raise PlainException).
