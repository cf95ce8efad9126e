(** * M_Hash: hashlib's SHA-256 and RIPEMD-160

    The hash functions are not neocore code.  The model takes them as a record
    [hashes]; every theorem is about an arbitrary record with the right digest
    lengths ([hash_ok]), so nothing is assumed about collisions.  The concrete
    functions below (FIPS 180-4 and the RIPEMD-160 specification) are one such
    record; they are used for examples, test vectors and the theorems about
    [real_hashes], and P_Hash2.v proves that they meet the published definitions,
    stated independently in S_Hash.v. *)
From Verif Require Import M_Py.

Record hashes := mkHashes { sha256 : bytes -> bytes; ripemd160 : bytes -> bytes }.
(** digest sizes *)
Definition hash_ok (H : hashes) : Prop :=
  (forall b, length (sha256 H b) = 32%nat) /\ (forall b, length (ripemd160 H b) = 20%nat).

Definition m32 : Z := 4294967295.
Definition add32 (a b : Z) : Z := Z.land (a + b) m32.
Definition rotl (n x : Z) : Z := Z.lor (Z.land (Z.shiftl x n) m32) (Z.shiftr x (32 - n)).
Definition rotr (n x : Z) : Z := rotl (32 - n) x.
Definition not32 (x : Z) : Z := Z.lxor x m32.

(** the message with 0x80, zeros and the 8-byte bit length, in 64-byte blocks *)
Definition md_pad (e : endian) (m : bytes) : bytes :=
  let zeros := Z.to_nat ((55 - zlen m) mod 64) in
  m ++ [x80] ++ repeat x00 zeros ++ z2bytes e 8 (8 * zlen m).
Fixpoint blocks_of {A} (n fuel : nat) (l : list A) : list (list A) :=
  match fuel with
  | O => []
  | S k => match l with [] => [] | _ => firstn n l :: blocks_of n k (skipn n l) end
  end.
Definition blocks64 (m : bytes) : list bytes := blocks_of 64 (length m) m.
Definition words (e : endian) (b : bytes) : list Z := map (bytes2z e) (blocks_of 4 (length b) b).

Definition K256 : list Z := [
  0x428a2f98;0x71374491;0xb5c0fbcf;0xe9b5dba5;0x3956c25b;0x59f111f1;0x923f82a4;0xab1c5ed5;
  0xd807aa98;0x12835b01;0x243185be;0x550c7dc3;0x72be5d74;0x80deb1fe;0x9bdc06a7;0xc19bf174;
  0xe49b69c1;0xefbe4786;0x0fc19dc6;0x240ca1cc;0x2de92c6f;0x4a7484aa;0x5cb0a9dc;0x76f988da;
  0x983e5152;0xa831c66d;0xb00327c8;0xbf597fc7;0xc6e00bf3;0xd5a79147;0x06ca6351;0x14292967;
  0x27b70a85;0x2e1b2138;0x4d2c6dfc;0x53380d13;0x650a7354;0x766a0abb;0x81c2c92e;0x92722c85;
  0xa2bfe8a1;0xa81a664b;0xc24b8b70;0xc76c51a3;0xd192e819;0xd6990624;0xf40e3585;0x106aa070;
  0x19a4c116;0x1e376c08;0x2748774c;0x34b0bcb5;0x391c0cb3;0x4ed8aa4a;0x5b9cca4f;0x682e6ff3;
  0x748f82ee;0x78a5636f;0x84c87814;0x8cc70208;0x90befffa;0xa4506ceb;0xbef9a3f7;0xc67178f2].

Definition st8 := (Z * Z * Z * Z * Z * Z * Z * Z)%type.
Definition sha256_init : st8 :=
  (0x6a09e667,0xbb67ae85,0x3c6ef372,0xa54ff53a,0x510e527f,0x9b05688c,0x1f83d9ab,0x5be0cd19).
(** message schedule: the last 16 words, most recent first *)
Fixpoint schedule (n : nat) (recent : list Z) : list Z :=
  match n with
  | O => []
  | S k =>
      let w15 := nth 14 recent 0 in
      let w2 := nth 1 recent 0 in
      let s0 := Z.lxor (Z.lxor (rotr 7 w15) (rotr 18 w15)) (Z.shiftr w15 3) in
      let s1 := Z.lxor (Z.lxor (rotr 17 w2) (rotr 19 w2)) (Z.shiftr w2 10) in
      let w := add32 (add32 (nth 15 recent 0) s0) (add32 (nth 6 recent 0) s1) in
      w :: schedule k (w :: firstn 15 recent)
  end.
Definition sha256_round (s : st8) (kw : Z * Z) : st8 :=
  let '(a, b, c, d, e, f, g, h) := s in
  let s1 := Z.lxor (Z.lxor (rotr 6 e) (rotr 11 e)) (rotr 25 e) in
  let ch := Z.lxor (Z.land e f) (Z.land (not32 e) g) in
  let t1 := add32 (add32 h s1) (add32 ch (add32 (fst kw) (snd kw))) in
  let s0 := Z.lxor (Z.lxor (rotr 2 a) (rotr 13 a)) (rotr 22 a) in
  let maj := Z.lxor (Z.lxor (Z.land a b) (Z.land a c)) (Z.land b c) in
  (add32 t1 (add32 s0 maj), a, b, c, add32 d t1, e, f, g).
Definition sha256_block (s : st8) (blk : bytes) : st8 :=
  let w := words BE blk in
  let ws := w ++ schedule 48 (rev w) in
  let '(a, b, c, d, e, f, g, h) := fold_left sha256_round (combine K256 ws) s in
  let '(a0, b0, c0, d0, e0, f0, g0, h0) := s in
  (add32 a a0, add32 b b0, add32 c c0, add32 d d0, add32 e e0, add32 f f0, add32 g g0, add32 h h0).
Definition real_sha256 (m : bytes) : bytes :=
  let '(a, b, c, d, e, f, g, h) := fold_left sha256_block (blocks64 (md_pad BE m)) sha256_init in
  concat (map (z2bytes BE 4) [a; b; c; d; e; f; g; h]).

(** RIPEMD-160 *)
Definition st5 := (Z * Z * Z * Z * Z)%type.
Definition rmd_f (j : nat) (x y z : Z) : Z :=
  match j with
  | 0%nat => Z.lxor (Z.lxor x y) z
  | 1%nat => Z.lor (Z.land x y) (Z.land (not32 x) z)
  | 2%nat => Z.lxor (Z.lor x (not32 y)) z
  | 3%nat => Z.lor (Z.land x z) (Z.land y (not32 z))
  | _ => Z.lxor x (Z.lor y (not32 z))
  end.
Definition rmd_K : list Z := [0; 0x5a827999; 0x6ed9eba1; 0x8f1bbcdc; 0xa953fd4e].
Definition rmd_K' : list Z := [0x50a28be6; 0x5c4dd124; 0x6d703ef3; 0x7a6d76e9; 0].
Definition rmd_r : list (list nat) := [
 [0;1;2;3;4;5;6;7;8;9;10;11;12;13;14;15]; [7;4;13;1;10;6;15;3;12;0;9;5;2;14;11;8];
 [3;10;14;4;9;15;8;1;2;7;0;6;13;11;5;12]; [1;9;11;10;0;8;12;4;13;3;7;15;14;5;6;2];
 [4;0;5;9;7;12;2;10;14;1;3;8;11;6;15;13]]%nat.
Definition rmd_r' : list (list nat) := [
 [5;14;7;0;9;2;11;4;13;6;15;8;1;10;3;12]; [6;11;3;7;0;13;5;10;14;15;8;12;4;9;1;2];
 [15;5;1;3;7;14;6;9;11;8;12;2;10;0;4;13]; [8;6;4;1;3;11;15;0;5;12;2;13;9;7;10;14];
 [12;15;10;4;1;5;8;7;6;2;13;14;0;3;9;11]]%nat.
Definition rmd_s : list (list Z) := [
 [11;14;15;12;5;8;7;9;11;13;14;15;6;7;9;8]; [7;6;8;13;11;9;7;15;7;12;15;9;11;7;13;12];
 [11;13;6;7;14;9;13;15;14;8;13;6;5;12;7;5]; [11;12;14;15;14;15;9;8;9;14;5;6;8;6;5;12];
 [9;15;5;11;6;8;13;12;5;12;13;14;11;8;5;6]].
Definition rmd_s' : list (list Z) := [
 [8;9;9;11;13;15;15;5;7;7;8;11;14;14;12;6]; [9;13;15;7;12;8;9;11;7;7;12;7;6;15;13;11];
 [9;7;15;11;8;6;6;14;12;13;5;14;13;13;7;5]; [15;5;8;11;14;14;6;14;6;9;12;9;12;5;15;8];
 [8;5;12;9;12;5;14;6;8;13;6;5;15;13;11;11]].
Definition rmd_step (f : Z -> Z -> Z -> Z) (k : Z) (w : list Z) (s : st5) (rs : nat * Z) : st5 :=
  let '(a, b, c, d, e) := s in
  let t := add32 (rotl (snd rs) (add32 (add32 a (f b c d)) (add32 (nth (fst rs) w 0) k))) e in
  (e, t, b, rotl 10 c, d).
Definition rmd_line (ff : nat -> nat) (K : list Z) (rr : list (list nat)) (ss : list (list Z)) (w : list Z) (s : st5) : st5 :=
  fold_left (fun s j => fold_left (rmd_step (rmd_f (ff j)) (nth j K 0) w) (combine (nth j rr []) (nth j ss [])) s)
            [0; 1; 2; 3; 4]%nat s.
Definition rmd_block (s : st5) (blk : bytes) : st5 :=
  let w := words LE blk in
  let '(a, b, c, d, e) := rmd_line (fun j => j) rmd_K rmd_r rmd_s w s in
  let '(a', b', c', d', e') := rmd_line (fun j => (4 - j)%nat) rmd_K' rmd_r' rmd_s' w s in
  let '(h0, h1, h2, h3, h4) := s in
  (add32 h1 (add32 c d'), add32 h2 (add32 d e'), add32 h3 (add32 e a'), add32 h4 (add32 a b'), add32 h0 (add32 b c')).
Definition real_ripemd160 (m : bytes) : bytes :=
  let '(a, b, c, d, e) := fold_left rmd_block (blocks64 (md_pad LE m))
                            (0x67452301, 0xefcdab89, 0x98badcfe, 0x10325476, 0xc3d2e1f0) in
  concat (map (z2bytes LE 4) [a; b; c; d; e]).

Definition real_hashes : hashes := mkHashes real_sha256 real_ripemd160.
Lemma real_hashes_ok : hash_ok real_hashes.
Proof.
  split; intros b; cbn [sha256 ripemd160 real_hashes].
  - unfold real_sha256. destruct (fold_left _ _ _) as [[[[[[[a c] d] e] f] g] h] i]. reflexivity.
  - unfold real_ripemd160. destruct (fold_left _ _ _) as [[[[a c] d] e] f]. reflexivity.
Qed.
