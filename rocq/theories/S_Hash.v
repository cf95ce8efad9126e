(** * S_Hash: SHA-256 (FIPS 180-4) and RIPEMD-160 (Dobbertin, Bosselaers, Preneel) as relations
    between a message and its digest, for C108 *)
From Coq Require Import Arith Znumtheory.
From Verif Require Import M_Py S_IO.
Open Scope Z_scope.

(** ** words of 32 bits *)
(** bit i of a word; the word with given bits *)
Definition bit (x : Z) (i : nat) : bool := Z.odd (x / 2 ^ Z.of_nat i).
Definition word_of (f : nat -> bool) : Z := fold_right (fun i n => (if f i then 2 ^ Z.of_nat i else 0) + n) 0 (seq 0 32).
Definition turn_right (n : nat) (x : Z) : Z := word_of (fun i => bit x ((i + n) mod 32)).
Definition turn_left (n : nat) (x : Z) : Z := word_of (fun i => bit x ((i + (32 - n)) mod 32)).
Definition move_right (n : nat) (x : Z) : Z := word_of (fun i => (i + n <? 32)%nat && bit x (i + n)).
Definition xor3 (x y z : Z) : Z := word_of (fun i => xorb (xorb (bit x i) (bit y i)) (bit z i)).
Definition choose (x y z : Z) : Z := word_of (fun i => if bit x i then bit y i else bit z i).
Definition majority (x y z : Z) : Z := word_of (fun i => bit x i && bit y i || bit x i && bit z i || bit y i && bit z i).
(** addition modulo 2^32 *)
Definition sum32 (l : list Z) : Z := fold_right Z.add 0 l mod 2 ^ 32.

(** ** the message in blocks of 64 bytes *)
(** the message, a byte 0x80, the fewest zeros, and the length in bits as 8 bytes *)
Definition padded (e : endian) (m p : bytes) : Prop := exists z l,
  p = m ++ [x80] ++ repeat x00 z ++ l /\ (z < 64)%nat /\ length l = 8%nat /\ num e l = (8 * zlen m) mod 2 ^ 64 /\ exists n, length p = (64 * n)%nat.
(** word t of block i *)
Definition block_word (e : endian) (p : bytes) (i t : nat) : Z := num e (firstn 4 (skipn (64 * i + 4 * t) p)).
(** the digest made of words *)
Definition digest_words (e : endian) (n : nat) (h : nat -> Z) (d : bytes) : Prop :=
  length d = (4 * n)%nat /\ forall j, (j < n)%nat -> num e (firstn 4 (skipn (4 * j) d)) = h j.

(** ** SHA-256 *)
(** prime number t, counted from 0 *)
Definition prime_no (t : nat) (p : Z) : Prop :=
  prime p /\ exists below, NoDup below /\ length below = t /\ forall q, In q below <-> prime q /\ q < p.
(** c: the first 32 bits after the point of the k-th root of p *)
Definition root_fraction (k p c : Z) : Prop :=
  exists r, 0 <= r /\ r ^ k <= p * 2 ^ (32 * k) < (r + 1) ^ k /\ c = r mod 2 ^ 32.
(** FIPS 180-4, 4.2.2 and 5.3.3: of the cube roots of the first 64 primes, and of the square roots of
    the first 8 *)
Definition sha_constant (k : Z) (t : nat) (c : Z) : Prop := exists p, prime_no t p /\ root_fraction k p c.
(** 4.1.2 *)
Definition Sum0 (x : Z) : Z := xor3 (turn_right 2 x) (turn_right 13 x) (turn_right 22 x).
Definition Sum1 (x : Z) : Z := xor3 (turn_right 6 x) (turn_right 11 x) (turn_right 25 x).
Definition sigma0 (x : Z) : Z := xor3 (turn_right 7 x) (turn_right 18 x) (move_right 3 x).
Definition sigma1 (x : Z) : Z := xor3 (turn_right 17 x) (turn_right 19 x) (move_right 10 x).
(** 6.2.2: one block X takes the hash value h to h'; K are the constants, W the message schedule, and
    v t j is working variable j (a, b, ... h) after t rounds *)
Definition sha_schedule (X W : nat -> Z) : Prop :=
  (forall t, (t < 16)%nat -> W t = X t) /\
  (forall t, (16 <= t < 64)%nat -> W t = sum32 [sigma1 (W (t - 2)%nat); W (t - 7)%nat; sigma0 (W (t - 15)%nat); W (t - 16)%nat]).
Definition sha_round (k w : Z) (v v' : nat -> Z) : Prop :=
  let T1 := sum32 [v 7%nat; Sum1 (v 4%nat); choose (v 4%nat) (v 5%nat) (v 6%nat); k; w] in
  let T2 := sum32 [Sum0 (v 0%nat); majority (v 0%nat) (v 1%nat) (v 2%nat)] in
  v' 7%nat = v 6%nat /\ v' 6%nat = v 5%nat /\ v' 5%nat = v 4%nat /\ v' 4%nat = sum32 [v 3%nat; T1] /\
  v' 3%nat = v 2%nat /\ v' 2%nat = v 1%nat /\ v' 1%nat = v 0%nat /\ v' 0%nat = sum32 [T1; T2].
Definition sha_compression (X h h' : nat -> Z) : Prop := exists (K W : nat -> Z) (v : nat -> nat -> Z),
  (forall t, (t < 64)%nat -> sha_constant 3 t (K t)) /\ sha_schedule X W /\
  (forall j, (j < 8)%nat -> v 0%nat j = h j) /\ (forall t, (t < 64)%nat -> sha_round (K t) (W t) (v t) (v (S t))) /\
  (forall j, (j < 8)%nat -> h' j = sum32 [h j; v 64%nat j]).
Definition is_sha256 (m d : bytes) : Prop := exists p n (h : nat -> nat -> Z),
  padded BE m p /\ length p = (64 * n)%nat /\ (forall j, (j < 8)%nat -> sha_constant 2 j (h 0%nat j)) /\
  (forall i, (i < n)%nat -> sha_compression (block_word BE p i) (h i) (h (S i))) /\ digest_words BE 8 (h n) d.

(** ** RIPEMD-160 *)
(** the five Boolean functions *)
Definition rmd_function (r : nat) (x y z : Z) : Z :=
  match r with
  | 0%nat => xor3 x y z
  | 1%nat => choose x y z
  | 2%nat => word_of (fun i => xorb (bit x i || negb (bit y i)) (bit z i))
  | 3%nat => choose z x y
  | _ => word_of (fun i => xorb (bit x i) (bit y i || negb (bit z i)))
  end.
(** c = 2^30 times the k-th root of p, without its fraction *)
Definition scaled_root (k p c : Z) : Prop := 0 <= c /\ c ^ k <= p * 2 ^ (30 * k) < (c + 1) ^ k.
(** added constants of round r: 0 and the square roots of 2, 3, 5, 7; in the right line the cube
    roots of 2, 3, 5, 7 and 0 *)
Definition rmd_constant (right : bool) (r : nat) (c : Z) : Prop :=
  match right, r with
  | false, 0%nat => c = 0 | false, 1%nat => scaled_root 2 2 c | false, 2%nat => scaled_root 2 3 c | false, 3%nat => scaled_root 2 5 c | false, _ => scaled_root 2 7 c
  | true, 0%nat => scaled_root 3 2 c | true, 1%nat => scaled_root 3 3 c | true, 2%nat => scaled_root 3 5 c | true, 3%nat => scaled_root 3 7 c | true, _ => c = 0
  end.
(** selection of the message word: rho^r, in the right line rho^r after pi(i) = 9 i + 5 mod 16 *)
Definition rho (i : nat) : nat := nth i [7; 4; 13; 1; 10; 6; 15; 3; 12; 0; 9; 5; 2; 14; 11; 8]%nat 0%nat.
Definition rmd_index (right : bool) (t : nat) : nat :=
  Nat.iter (t / 16) rho (if right then (9 * (t mod 16) + 5) mod 16 else t mod 16)%nat.
(** the amount of rotation depends on the round and on the message word *)
Definition rmd_shift (r index : nat) : nat := nth index (nth r
  [[11; 14; 15; 12; 5; 8; 7; 9; 11; 13; 14; 15; 6; 7; 9; 8];
   [12; 13; 11; 15; 6; 9; 9; 7; 12; 15; 11; 13; 7; 8; 7; 7];
   [13; 15; 14; 11; 7; 7; 6; 8; 13; 14; 13; 12; 5; 5; 6; 9];
   [14; 11; 12; 14; 8; 6; 5; 5; 15; 12; 15; 14; 9; 9; 8; 6];
   [15; 12; 13; 13; 9; 5; 8; 6; 14; 11; 12; 11; 8; 6; 5; 5]] [])%nat 0%nat.
(** one step of a line; the right line takes the functions in the opposite order *)
Definition rmd_step_is (right : bool) (X : nat -> Z) (t : nat) (v v' : nat -> Z) : Prop := exists k,
  let r := (t / 16)%nat in let i := rmd_index right t in
  rmd_constant right r k /\
  v' 1%nat = sum32 [turn_left (rmd_shift r i) (sum32 [v 0%nat; rmd_function (if right then 4 - r else r)%nat (v 1%nat) (v 2%nat) (v 3%nat); X i; k]); v 4%nat] /\
  v' 0%nat = v 4%nat /\ v' 4%nat = v 3%nat /\ v' 3%nat = turn_left 10 (v 2%nat) /\ v' 2%nat = v 1%nat.
Definition rmd_line_is (right : bool) (X h out : nat -> Z) : Prop := exists v : nat -> nat -> Z,
  (forall j, (j < 5)%nat -> v 0%nat j = h j) /\ (forall t, (t < 80)%nat -> rmd_step_is right X t (v t) (v (S t))) /\ (forall j, (j < 5)%nat -> out j = v 80%nat j).
Definition rmd_compression (X h h' : nat -> Z) : Prop := exists L R : nat -> Z,
  rmd_line_is false X h L /\ rmd_line_is true X h R /\
  h' 0%nat = sum32 [h 1%nat; L 2%nat; R 3%nat] /\ h' 1%nat = sum32 [h 2%nat; L 3%nat; R 4%nat] /\ h' 2%nat = sum32 [h 3%nat; L 4%nat; R 0%nat] /\
  h' 3%nat = sum32 [h 4%nat; L 0%nat; R 1%nat] /\ h' 4%nat = sum32 [h 0%nat; L 1%nat; R 2%nat].
(** the initial value is 01 23 45 67 89 ab cd ef fe dc ba 98 76 54 32 10 f0 e1 d2 c3 *)
Definition rmd_initial : bytes := [x01; x23; x45; x67; x89; xab; xcd; xef; xfe; xdc; xba; x98; x76; x54; x32; x10; xf0; xe1; xd2; xc3].
Definition is_ripemd160 (m d : bytes) : Prop := exists p n (h : nat -> nat -> Z),
  padded LE m p /\ length p = (64 * n)%nat /\ digest_words LE 5 (h 0%nat) rmd_initial /\
  (forall i, (i < n)%nat -> rmd_compression (block_word LE p i) (h i) (h (S i))) /\ digest_words LE 5 (h n) d.
