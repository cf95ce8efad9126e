(** * M_Base58: the third-party package base58==1.0.3 (requirements.txt:1)

    Not part of /repo, modelled because /repo calls it at Helper.py:84,
    KeyPair.py:94,127,185,232, Utils.py:10 and bin/cli.py:25.  Releases of base58
    differ in whether decoding drops trailing whitespace first (`v = v.rstrip()`);
    the model takes that as the boolean [rs], and the theorems hold for both. *)
From Coq Require Import String.
From Verif Require Import M_Py M_Hash.

(** The loop `while i: i, r = divmod(i, base)` with the remainders in the order they
    are produced, least significant first (Helper.py:157-159, base58.b58encode_int,
    base58.b58decode).  The fuel is the bit length of i, at least the number of
    iterations for base >= 2. *)
Fixpoint divmod_loop (base : Z) (fuel : nat) (i : Z) : list Z :=
  match fuel with
  | O => []
  | S k => if i =? 0 then [] else (i mod base) :: divmod_loop base k (i / base)
  end.
Definition divmod_digits (base i : Z) : list Z := divmod_loop base (Z.to_nat (bit_length i)) i.

Definition b58_alphabet : bytes := bstr "123456789ABCDEFGHJKLMNPQRSTUVWXYZabcdefghijkmnopqrstuvwxyz".
Definition one_char : byte := x31.

(** alphabet[idx:idx+1] and alphabet.index(char) *)
Definition alpha (d : Z) : byte := nth (Z.to_nat d) b58_alphabet x00.
Fixpoint index_from (k : Z) (l : bytes) (c : byte) : option Z :=
  match l with
  | [] => None
  | x :: r => if Byte.eqb x c then Some k else index_from (k + 1) r c
  end.
Definition alpha_index (c : byte) : option Z := index_from 0 b58_alphabet c.

(** b58encode_int(i, default_one=False): digits are prepended one by one *)
Definition b58encode_int (i : Z) : bytes :=
  fold_left (fun string idx => alpha idx :: string) (divmod_digits 58 i) [].

(** for c in reversed(v): acc += p * c; p = p << 8 *)
Definition b58_acc (v : bytes) : Z :=
  snd (fold_left (fun st c => let '(p, acc) := st in (Z.shiftl p 8, acc + p * b2z c)) (rev v) (1, 0)).

(** b58encode(v) for bytes *)
Definition b58encode (v : bytes) : bytes :=
  let w := lstrip x00 v in
  repeat one_char (length v - length w) ++ b58encode_int (b58_acc w).

(** str.isspace of a single character *)
Definition is_uspace (c : Z) : bool :=
  is_space c || ((28 <=? c) && (c <=? 31)) || (c =? 133) || (c =? 160) || (c =? 5760) ||
  ((8192 <=? c) && (c <=? 8202)) || (c =? 8232) || (c =? 8233) || (c =? 8239) || (c =? 8287) || (c =? 12288).
Fixpoint drop_while {A} (f : A -> bool) (l : list A) : list A :=
  match l with [] => [] | x :: r => if f x then drop_while f r else l end.
Definition rstrip_by {A} (f : A -> bool) (l : list A) : list A := rev (drop_while f (rev l)).

(** v.rstrip() in the releases that have it, then scrub_input(v) *)
Definition scrub_input (rs : bool) (v : pyval) : res bytes :=
  match v with
  | VStr s => ascii_encode (if rs then rstrip_by is_uspace s else s)
  | VBytes b => Ok (if rs then rstrip_by (fun c => is_space (b2z c)) b else b)
  | VBytearray _ => Raise TypeError
  | _ => Raise (if rs then AttributeError else TypeError)
  end.

(** b58decode_int: decimal = decimal * 58 + alphabet.index(char) *)
Fixpoint b58decode_int_from (decimal : Z) (v : bytes) : res Z :=
  match v with
  | [] => Ok decimal
  | c :: r => match alpha_index c with
              | Some d => b58decode_int_from (decimal * 58 + d) r
              | None => Raise ValueError
              end
  end.

(** b58decode after scrub_input *)
Definition b58decode_bytes (v : bytes) : res bytes :=
  let w := lstrip one_char v in
  do acc <- b58decode_int_from 0 w;
  Ok (repeat x00 (length v - length w) ++ map z2b (rev (divmod_digits 256 acc))).
Definition b58decode (rs : bool) (v : pyval) : res bytes :=
  do b <- scrub_input rs v; b58decode_bytes b.

(** b58encode_check, b58decode_check *)
Definition b58encode_check (H : hashes) (v : bytes) : bytes :=
  b58encode (v ++ firstn 4 (sha256 H (sha256 H v))).
Definition b58decode_check (H : hashes) (rs : bool) (v : pyval) : res bytes :=
  do r <- b58decode rs v;
  let result := drop_last 4 r in
  let check := last_n 4 r in
  if list_eq_dec Byte.byte_eq_dec check (firstn 4 (sha256 H (sha256 H result))) then Ok result
  else Raise ValueError.
