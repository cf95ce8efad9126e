(** * S_Nep2: AES as FIPS 197 defines it, and what a NEP-2 text contains *)
From Verif Require Import M_Py S_IO S_KeyPair S_Signature.

(** ** the field with 256 elements: polynomials over GF(2) modulo x^8+x^4+x^3+x+1 (0x11b) *)
(** the product of two polynomials, the second of degree at most 7 *)
Definition poly_product (a b : Z) : Z :=
  fold_right Z.lxor 0 (map (fun i => if Z.testbit b i then a * 2 ^ i else 0) [0; 1; 2; 3; 4; 5; 6; 7]).
Definition gf_product (a b c : Z) : Prop :=
  0 <= c < 256 /\ exists q, 0 <= q < 256 /\ poly_product a b = Z.lxor c (poly_product 0x11b q).
(** the S-box: the inverse in the field (0 for 0), then an affine map of its bits *)
Definition sbox_is (x s : Z) : Prop :=
  0 <= s < 256 /\ exists i, 0 <= i < 256 /\ (x = 0 /\ i = 0 \/ gf_product x i 1) /\
  forall n, 0 <= n < 8 -> Z.testbit s n =
    xorb (Z.testbit i n) (xorb (Z.testbit i ((n + 4) mod 8)) (xorb (Z.testbit i ((n + 5) mod 8))
      (xorb (Z.testbit i ((n + 6) mod 8)) (xorb (Z.testbit i ((n + 7) mod 8)) (Z.testbit 0x63 n))))).

(** ** the state: 16 bytes, column by column *)
Definition at_rc (s : list Z) (r c : nat) : Z := nth (r + 4 * c) s 0.
Definition substituted (s t : list Z) : Prop := length t = 16%nat /\ forall i, (i < 16)%nat -> sbox_is (nth i s 0) (nth i t 0).
(** row r moves r places to the left *)
Definition rows_shifted (s t : list Z) : Prop :=
  length t = 16%nat /\ forall r c, (r < 4)%nat -> (c < 4)%nat -> at_rc t r c = at_rc s r ((c + r) mod 4)%nat.
(** each column is multiplied by the matrix with the rows 2 3 1 1, 1 2 3 1, 1 1 2 3, 3 1 1 2 *)
Definition coefficient (r j : nat) : Z := nth j (nth r [[2; 3; 1; 1]; [1; 2; 3; 1]; [1; 1; 2; 3]; [3; 1; 1; 2]] []) 0.
Definition columns_mixed (s t : list Z) : Prop :=
  length t = 16%nat /\ forall r c, (r < 4)%nat -> (c < 4)%nat -> exists p0 p1 p2 p3,
    gf_product (at_rc s 0 c) (coefficient r 0) p0 /\ gf_product (at_rc s 1 c) (coefficient r 1) p1 /\
    gf_product (at_rc s 2 c) (coefficient r 2) p2 /\ gf_product (at_rc s 3 c) (coefficient r 3) p3 /\
    at_rc t r c = Z.lxor p0 (Z.lxor p1 (Z.lxor p2 p3)).
Definition added (s k t : list Z) : Prop :=
  length t = 16%nat /\ forall i, (i < 16)%nat -> nth i t 0 = Z.lxor (nth i s 0) (nth i k 0).

(** ** the key schedule: [w i] is word number i, [nk] the number of words of the key *)
(** the round constants 1, x, x^2, ... *)
Inductive rcon_is : nat -> Z -> Prop :=
| rcon_first : rcon_is 1 1
| rcon_next n a b : rcon_is n a -> gf_product a 2 b -> rcon_is (S n) b.
Definition key_schedule (nk : nat) (key : bytes) (w : nat -> list Z) : Prop :=
  (forall i, (i < nk)%nat -> forall j, (j < 4)%nat -> nth j (w i) 0 = b2z (nth (4 * i + j) key x00)) /\
  (forall i, (nk <= i < 4 * (nk + 7))%nat -> exists t,
     (forall j, (j < 4)%nat -> nth j (w i) 0 = Z.lxor (nth j (w (i - nk)%nat) 0) (nth j t 0)) /\
     (** every nk-th word: rotated, substituted, and the round constant added to the first byte *)
     ((i mod nk = 0)%nat -> exists rc, rcon_is (i / nk)%nat rc /\ forall j, (j < 4)%nat ->
        exists s, sbox_is (nth ((j + 1) mod 4)%nat (w (i - 1)%nat) 0) s /\ nth j t 0 = Z.lxor s (if (j =? 0)%nat then rc else 0)) /\
     (** 256-bit keys: a substitution halfway *)
     ((i mod nk = 4)%nat -> nk = 8%nat -> forall j, (j < 4)%nat -> sbox_is (nth j (w (i - 1)%nat) 0) (nth j t 0)) /\
     ((i mod nk <> 0)%nat -> ~ ((i mod nk = 4)%nat /\ nk = 8%nat) -> forall j, (j < 4)%nat -> nth j t 0 = nth j (w (i - 1)%nat) 0)).

(** ** one block: nk+6 rounds, the last without the mixing of columns *)
Definition aes_block (nk : nat) (key block out : bytes) : Prop :=
  exists (w : nat -> list Z) (k s : nat -> list Z) (a b : list Z),
    key_schedule nk key w /\
    (forall r i, (r < nk + 7)%nat -> (i < 16)%nat -> nth i (k r) 0 = nth (i mod 4)%nat (w (4 * r + i / 4)%nat) 0) /\
    added (map b2z block) (k 0%nat) (s 0%nat) /\
    (forall r, (r + 1 < nk + 6)%nat -> exists t u v, substituted (s r) t /\ rows_shifted t u /\ columns_mixed u v /\ added v (k (r + 1)%nat) (s (r + 1)%nat)) /\
    substituted (s (nk + 5)%nat) a /\ rows_shifted a b /\ added b (k (nk + 6)%nat) (map b2z out).
(** ECB: every block of 16 bytes by itself *)
Inductive aes_ecb (nk : nat) (key : bytes) : bytes -> bytes -> Prop :=
| ecb_nil : aes_ecb nk key [] []
| ecb_cons block out data outs : length block = 16%nat -> length out = 16%nat -> aes_block nk key block out -> aes_ecb nk key data outs ->
    aes_ecb nk key (block ++ data) (out ++ outs).

(** ** scrypt (RFC 7914) *)
(** 32-bit words: addition and rotation to the left *)
Definition plus32 (a b : Z) : Z := (a + b) mod 2 ^ 32.
Definition rot32 (n a : Z) : Z := (a * 2 ^ n) mod 2 ^ 32 + a / 2 ^ (32 - n).
(** Salsa20's quarter round *)
Definition quarter_round (y0 y1 y2 y3 z0 z1 z2 z3 : Z) : Prop :=
  z1 = Z.lxor y1 (rot32 7 (plus32 y0 y3)) /\ z2 = Z.lxor y2 (rot32 9 (plus32 z1 y0)) /\
  z3 = Z.lxor y3 (rot32 13 (plus32 z2 z1)) /\ z0 = Z.lxor y0 (rot32 18 (plus32 z3 z2)).
(** a double round: the columns of the 4x4 matrix, then its rows, each from the diagonal on *)
Definition column_round (y z : list Z) : Prop :=
  let a i := nth i y 0 in let b i := nth i z 0 in length z = 16%nat /\
  quarter_round (a 0%nat) (a 4%nat) (a 8%nat) (a 12%nat) (b 0%nat) (b 4%nat) (b 8%nat) (b 12%nat) /\
  quarter_round (a 5%nat) (a 9%nat) (a 13%nat) (a 1%nat) (b 5%nat) (b 9%nat) (b 13%nat) (b 1%nat) /\
  quarter_round (a 10%nat) (a 14%nat) (a 2%nat) (a 6%nat) (b 10%nat) (b 14%nat) (b 2%nat) (b 6%nat) /\
  quarter_round (a 15%nat) (a 3%nat) (a 7%nat) (a 11%nat) (b 15%nat) (b 3%nat) (b 7%nat) (b 11%nat).
Definition row_round (y z : list Z) : Prop :=
  let a i := nth i y 0 in let b i := nth i z 0 in length z = 16%nat /\
  quarter_round (a 0%nat) (a 1%nat) (a 2%nat) (a 3%nat) (b 0%nat) (b 1%nat) (b 2%nat) (b 3%nat) /\
  quarter_round (a 5%nat) (a 6%nat) (a 7%nat) (a 4%nat) (b 5%nat) (b 6%nat) (b 7%nat) (b 4%nat) /\
  quarter_round (a 10%nat) (a 11%nat) (a 8%nat) (a 9%nat) (b 10%nat) (b 11%nat) (b 8%nat) (b 9%nat) /\
  quarter_round (a 15%nat) (a 12%nat) (a 13%nat) (a 14%nat) (b 15%nat) (b 12%nat) (b 13%nat) (b 14%nat).
(** [words_of b x]: the 64 bytes are the 16 little-endian words x *)
Definition words_of (b : bytes) (x : list Z) : Prop :=
  length b = 64%nat /\ length x = 16%nat /\ forall i, (i < 16)%nat -> nth i x 0 = num LE (firstn 4 (skipn (4 * i) b)).
Definition salsa20_8 (b out : bytes) : Prop :=
  exists x c1 x1 c2 x2 c3 x3 c4 x4 z, words_of b x /\
    column_round x c1 /\ row_round c1 x1 /\ column_round x1 c2 /\ row_round c2 x2 /\
    column_round x2 c3 /\ row_round c3 x3 /\ column_round x3 c4 /\ row_round c4 x4 /\
    words_of out z /\ forall i, (i < 16)%nat -> nth i z 0 = plus32 (nth i x 0) (nth i x4 0).

(** block number i, of n bytes *)
Definition block (n i : nat) (b : bytes) : bytes := firstn n (skipn (n * i) b).
(** section 4, on 2r blocks of 64 bytes: X(0) is the last block, X(i+1) Salsa20/8 of X(i) xor block i;
    the output is X(1), X(3), ..., then X(2), X(4), ... *)
Definition blockmix (r : nat) (b out : bytes) : Prop :=
  length b = (128 * r)%nat /\ length out = (128 * r)%nat /\ exists X : nat -> bytes,
    X 0%nat = block 64 (2 * r - 1) b /\
    (forall i, (i < 2 * r)%nat -> exists t, xored (X i) (block 64 i b) t /\ salsa20_8 t (X (i + 1)%nat)) /\
    (forall i, (i < r)%nat -> block 64 i out = X (2 * i + 1)%nat /\ block 64 (r + i) out = X (2 * i + 2)%nat).
(** section 5; Integerify is the last block of 64 bytes read as a little-endian number *)
Definition romix_is (r N : nat) (b out : bytes) : Prop :=
  exists V X : nat -> bytes, V 0%nat = b /\ (forall i, (i < N)%nat -> blockmix r (V i) (V (i + 1)%nat)) /\
    X 0%nat = V N /\
    (forall i, (i < N)%nat -> exists t, xored (X i) (V (Z.to_nat (num LE (block 64 (2 * r - 1) (X i)) mod Z.of_nat N))) t /\ blockmix r t (X (i + 1)%nat)) /\
    out = X N.
(** HMAC with keys of any length, and PBKDF2 with one iteration *)
Definition hmac_any_is (H : M_Hash.hashes) (key msg mac : bytes) : Prop :=
  ((length key <= 64)%nat -> hmac_is H key msg mac) /\ ((64 < length key)%nat -> hmac_is H (M_Hash.sha256 H key) msg mac).
Definition pbkdf2_is (H : M_Hash.hashes) (P S : bytes) (out : bytes) : Prop :=
  exists T : nat -> bytes, (forall i, (32 * i < length out)%nat ->
    exists number, length number = 4%nat /\ num_be number = Z.of_nat i + 1 /\ hmac_any_is H P (S ++ number) (T i)) /\
    forall i, (i < length out)%nat -> nth i out x00 = nth (i mod 32)%nat (T (i / 32)%nat) x00.
(** section 6 *)
Definition scrypt_is (H : M_Hash.hashes) (N r p : nat) (P S out : bytes) : Prop :=
  exists B B', length B = (p * (128 * r))%nat /\ length B' = length B /\ pbkdf2_is H P S B /\
    (forall i, (i < p)%nat -> romix_is r N (block (128 * r) i B) (block (128 * r) i B')) /\
    pbkdf2_is H P B' out.
