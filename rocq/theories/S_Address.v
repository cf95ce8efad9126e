(** * S_Address: vocabulary for C45-C50, C54 and C72 *)
From Coq Require Import String.
From Verif Require Import M_Py M_Hash.

(** The number denoted by digits in the given base, most significant first. *)
Definition horner (base : Z) (l : list Z) : Z := fold_left (fun n d => base * n + d) l 0.

(** The Base58 alphabet, as character codes, in digit order. *)
Definition b58_chars : pystr := str "123456789ABCDEFGHJKLMNPQRSTUVWXYZabcdefghijkmnopqrstuvwxyz".
Definition b58_char (d : Z) : Z := nth (Z.to_nat d) b58_chars 0.

(** [text] is the Base58 representation of [data]: as many '1's as data has leading zero
    bytes, then the base-58 numeral of the remaining bytes read as a big-endian number. *)
Definition B58 (data : bytes) (text : pystr) : Prop :=
  exists k w ds, data = repeat x00 k ++ w /\ hd x01 w <> x00 /\
    text = repeat 49 k ++ map b58_char ds /\ hd 1 ds <> 0 /\ Forall (fun d => 0 <= d < 58) ds /\
    horner 256 (map b2z w) = horner 58 ds.

(** The first four bytes of the double SHA-256. *)
Definition checksum (H : hashes) (b : bytes) : bytes := firstn 4 (sha256 H (sha256 H b)).
(** [text] is the Base58Check representation of [payload]. *)
Definition B58Check (H : hashes) (payload : bytes) (text : pystr) : Prop := B58 (payload ++ checksum H payload) text.

(** White space characters of Python text. *)
Definition white (c : Z) : Prop :=
  In c [9; 10; 11; 12; 13; 28; 29; 30; 31; 32; 133; 160; 5760; 8232; 8233; 8239; 8287; 12288] \/ 8192 <= c <= 8202.
Definition white_ascii (c : Z) : Prop := In c [9; 10; 11; 12; 13; 32].

(** [t] is [s] without the trailing characters of class [w] -- for the base58 releases that
    drop them ([rs] = true) -- or [s] itself. *)
Definition trimmed (w : Z -> Prop) (rs : bool) (s t : pystr) : Prop :=
  if rs then exists tail, s = t ++ tail /\ Forall w tail /\ (forall r c, t = r ++ [c] -> ~ w c) else t = s.

(** Hexadecimal digit characters. *)
Definition hex_char (c : Z) : Prop := 48 <= c <= 57 \/ 97 <= c <= 102 \/ 65 <= c <= 70.
