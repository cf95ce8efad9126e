(** * M_Nep2: the two libraries behind NEP-2: AES in ECB mode and scrypt

    KeyPair.py:4,6 imports scrypt (the package scrypt, RFC 7914) and Crypto.Cipher.AES
    (PyCryptodome, FIPS 197); KeyPair.py:135-139,144-145 and 209-213,221-222 call
    scrypt.hash(password, salt, N=16384, r=8, p=8, buflen=64) and
    AES.new(key, AES.MODE_ECB).encrypt / .decrypt.  Neither is neocore code and neither is in
    /repo: the definitions below follow the two standards, not the packages' C code.
    Simplified: running out of memory is not modelled. *)
From Verif Require Import M_Py M_Hash M_KeyPair M_Bitcoin.

(** ** AES (FIPS 197) *)

(** the S-box (figure 7) *)
Definition sbox_table : list Z := [
  99;124;119;123;242;107;111;197;48;1;103;43;254;215;171;118;
  202;130;201;125;250;89;71;240;173;212;162;175;156;164;114;192;
  183;253;147;38;54;63;247;204;52;165;229;241;113;216;49;21;
  4;199;35;195;24;150;5;154;7;18;128;226;235;39;178;117;
  9;131;44;26;27;110;90;160;82;59;214;179;41;227;47;132;
  83;209;0;237;32;252;177;91;106;203;190;57;74;76;88;207;
  208;239;170;251;67;77;51;133;69;249;2;127;80;60;159;168;
  81;163;64;143;146;157;56;245;188;182;218;33;16;255;243;210;
  205;12;19;236;95;151;68;23;196;167;126;61;100;93;25;115;
  96;129;79;220;34;42;144;136;70;238;184;20;222;94;11;219;
  224;50;58;10;73;6;36;92;194;211;172;98;145;149;228;121;
  231;200;55;109;141;213;78;169;108;86;244;234;101;122;174;8;
  186;120;37;46;28;166;180;198;232;221;116;31;75;189;139;138;
  112;62;181;102;72;3;246;14;97;53;87;185;134;193;29;158;
  225;248;152;17;105;217;142;148;155;30;135;233;206;85;40;223;
  140;161;137;13;191;230;66;104;65;153;45;15;176;84;187;22].
(** the inverse S-box (figure 14) *)
Definition inv_sbox_table : list Z := [
  82;9;106;213;48;54;165;56;191;64;163;158;129;243;215;251;
  124;227;57;130;155;47;255;135;52;142;67;68;196;222;233;203;
  84;123;148;50;166;194;35;61;238;76;149;11;66;250;195;78;
  8;46;161;102;40;217;36;178;118;91;162;73;109;139;209;37;
  114;248;246;100;134;104;152;22;212;164;92;204;93;101;182;146;
  108;112;72;80;253;237;185;218;94;21;70;87;167;141;157;132;
  144;216;171;0;140;188;211;10;247;228;88;5;184;179;69;6;
  208;44;30;143;202;63;15;2;193;175;189;3;1;19;138;107;
  58;145;17;65;79;103;220;234;151;242;207;206;240;180;230;115;
  150;172;116;34;231;173;53;133;226;249;55;232;28;117;223;110;
  71;241;26;113;29;41;197;137;111;183;98;14;170;24;190;27;
  252;86;62;75;198;210;121;32;154;219;192;254;120;205;90;244;
  31;221;168;51;136;7;199;49;177;18;16;89;39;128;236;95;
  96;81;127;169;25;181;74;13;45;229;122;159;147;201;156;239;
  160;224;59;77;174;42;245;176;200;235;187;60;131;83;153;97;
  23;43;4;126;186;119;214;38;225;105;20;99;85;33;12;125].
Definition sub_byte (x : Z) : Z := nth (Z.to_nat x) sbox_table 0.
Definition inv_sub_byte (x : Z) : Z := nth (Z.to_nat x) inv_sbox_table 0.

(** 4.2.1 xtime: times x modulo x^8+x^4+x^3+x+1 *)
Definition xtime (a : Z) : Z := Z.lxor (2 * a) (if Z.testbit a 7 then 0x11b else 0).

(** 5.1.2, 5.3.1: the state is the 16 bytes in the order of the input, column by column *)
Definition shift_rows (s : list Z) : list Z := map (fun i => nth i s 0) [0;5;10;15;4;9;14;3;8;13;2;7;12;1;6;11]%nat.
Definition inv_shift_rows (s : list Z) : list Z := map (fun i => nth i s 0) [0;13;10;7;4;1;14;11;8;5;2;15;12;9;6;3]%nat.

(** 5.1.3, 5.3.3 *)
Definition times9 (a : Z) : Z := Z.lxor (xtime (xtime (xtime a))) a.
Definition times11 (a : Z) : Z := Z.lxor (xtime (Z.lxor (xtime (xtime a)) a)) a.
Definition times13 (a : Z) : Z := Z.lxor (xtime (xtime (Z.lxor (xtime a) a))) a.
Definition times14 (a : Z) : Z := xtime (Z.lxor (xtime (Z.lxor (xtime a) a)) a).
Definition xor4 (a b c d : Z) : Z := Z.lxor (Z.lxor a b) (Z.lxor c d).
Definition mix_column (a b c d : Z) : list Z :=
  [xor4 (xtime a) (Z.lxor (xtime b) b) c d; xor4 a (xtime b) (Z.lxor (xtime c) c) d;
   xor4 a b (xtime c) (Z.lxor (xtime d) d); xor4 (Z.lxor (xtime a) a) b c (xtime d)].
Definition inv_mix_column (a b c d : Z) : list Z :=
  [xor4 (times14 a) (times11 b) (times13 c) (times9 d); xor4 (times9 a) (times14 b) (times11 c) (times13 d);
   xor4 (times13 a) (times9 b) (times14 c) (times11 d); xor4 (times11 a) (times13 b) (times9 c) (times14 d)].
Definition columns (f : Z -> Z -> Z -> Z -> list Z) (s : list Z) : list Z :=
  flat_map (fun i => f (nth i s 0) (nth (i + 1) s 0) (nth (i + 2) s 0) (nth (i + 3) s 0)) [0;4;8;12]%nat.
Definition mix_columns : list Z -> list Z := columns mix_column.
Definition inv_mix_columns : list Z -> list Z := columns inv_mix_column.

(** 5.1.4 *)
Definition zxor (a b : list Z) : list Z := map (fun p => Z.lxor (fst p) (snd p)) (combine a b).

(** 5.2 KeyExpansion: [recent] are the last Nk words, the oldest first; [i] is the number of the
    next word, [rcon] the next round constant *)
Fixpoint expand_key (nk n i : nat) (rcon : Z) (recent : list (list Z)) : list (list Z) :=
  match n with
  | O => []
  | S n =>
      let temp := last recent [] in
      let temp' := if (i mod nk =? 0)%nat then zxor (map sub_byte (skipn 1 temp ++ firstn 1 temp)) [rcon; 0; 0; 0]
                   else if ((6 <? nk) && (i mod nk =? 4))%nat then map sub_byte temp else temp in
      let w := zxor (hd [] recent) temp' in
      w :: expand_key nk n (S i) (if (i mod nk =? 0)%nat then xtime rcon else rcon) (skipn 1 recent ++ [w])
  end.
(** the Nr+1 round keys of 16 bytes for a key of 16, 24 or 32 bytes *)
Definition round_keys (key : bytes) : list (list Z) :=
  let w := blocks_of 4 (length key) (map b2z key) in
  let nk := length w in
  blocks_of 16 (nk + 7) (concat (w ++ expand_key nk (4 * (nk + 7) - nk) nk 1 w)).

(** 5.1 Cipher; [keys] is the round keys in order *)
Definition aes_round (s k : list Z) : list Z := zxor (mix_columns (shift_rows (map sub_byte s))) k.
Definition aes_last (s k : list Z) : list Z := zxor (shift_rows (map sub_byte s)) k.
Definition aes_cipher (keys : list (list Z)) (block : list Z) : list Z :=
  aes_last (fold_left aes_round (removelast (tl keys)) (zxor block (hd [] keys))) (last keys []).
(** 5.3 InvCipher *)
Definition inv_aes_round (s k : list Z) : list Z := inv_mix_columns (zxor (map inv_sub_byte (inv_shift_rows s)) k).
Definition inv_aes_last (s k : list Z) : list Z := zxor (map inv_sub_byte (inv_shift_rows s)) k.
Definition inv_aes_cipher (keys : list (list Z)) (block : list Z) : list Z :=
  inv_aes_last (fold_left inv_aes_round (rev (removelast (tl keys))) (zxor block (last keys []))) (hd [] keys).

(** AES.new(key, AES.MODE_ECB): the key has 16, 24 or 32 bytes or ValueError; encrypt and decrypt
    want whole blocks of 16 bytes or raise ValueError, and treat every block by itself *)
Definition ecb (f : list Z -> list Z) (key data : bytes) : res bytes :=
  if negb ((zlen key =? 16) || (zlen key =? 24) || (zlen key =? 32)) then Raise ValueError
  else if negb (zlen data mod 16 =? 0) then Raise ValueError
  else Ok (concat (map (fun b => map z2b (f (map b2z b))) (blocks_of 16 (length data) data))).
Definition AES_encrypt (key data : bytes) : res bytes := let ks := round_keys key in ecb (aes_cipher ks) key data.
Definition AES_decrypt (key data : bytes) : res bytes := let ks := round_keys key in ecb (inv_aes_cipher ks) key data.

(** ** scrypt (RFC 7914) *)

(** HMAC-SHA-256 for a key of any length (RFC 2104): longer keys are hashed first *)
Definition hmac_any (H : hashes) (key msg : bytes) : bytes :=
  hmac_sha256 H (if (64 <? length key)%nat then sha256 H key else key) msg.
(** PBKDF2-HMAC-SHA-256 with one iteration (RFC 8018, 5.2): [n] blocks of 32 bytes, from number [i] *)
Fixpoint pbkdf2_blocks (H : hashes) (P S : bytes) (n : nat) (i : Z) : bytes :=
  match n with O => [] | Datatypes.S n => hmac_any H P (S ++ z2bytes BE 4 i) ++ pbkdf2_blocks H P S n (i + 1) end.
Definition pbkdf2 (H : hashes) (P S : bytes) (dkLen : nat) : bytes :=
  firstn dkLen (pbkdf2_blocks H P S ((dkLen + 31) / 32) 1).

(** section 3: Salsa20/8 Core, on the 16 little-endian words of a 64-byte block.  A double round
    changes the words at the four indices of each row of the list in turn. *)
Definition upd (l : list Z) (i : nat) (v : Z) : list Z := firstn i l ++ v :: skipn (S i) l.
Definition salsa_quarter (x : list Z) (q : nat * nat * nat * nat) : list Z :=
  let '(a, b, c, d) := q in
  let g i := nth i x 0 in
  let vb := Z.lxor (g b) (rotl 7 (add32 (g a) (g d))) in
  let vc := Z.lxor (g c) (rotl 9 (add32 vb (g a))) in
  let vd := Z.lxor (g d) (rotl 13 (add32 vc vb)) in
  let va := Z.lxor (g a) (rotl 18 (add32 vd vc)) in
  upd (upd (upd (upd x b vb) c vc) d vd) a va.
Definition salsa_indices : list (nat * nat * nat * nat) :=
  [(0, 4, 8, 12); (5, 9, 13, 1); (10, 14, 2, 6); (15, 3, 7, 11);
   (0, 1, 2, 3); (5, 6, 7, 4); (10, 11, 8, 9); (15, 12, 13, 14)]%nat.
Definition salsa_double (x : list Z) : list Z := fold_left salsa_quarter salsa_indices x.
Definition salsa8 (b : bytes) : bytes :=
  let x := words LE b in
  let z := salsa_double (salsa_double (salsa_double (salsa_double x))) in
  concat (map (fun p => z2bytes LE 4 (add32 (fst p) (snd p))) (combine x z)).

Definition bxor (a b : bytes) : bytes := map (fun p => z2b (Z.lxor (b2z (fst p)) (b2z (snd p)))) (combine a b).
(** section 4: scryptBlockMix, on 2r blocks of 64 bytes *)
Fixpoint block_mix_go (X : bytes) (l : list bytes) : list bytes :=
  match l with [] => [] | B :: l => let X := salsa8 (bxor X B) in X :: block_mix_go X l end.
Fixpoint evens {A} (l : list A) : list A := match l with a :: _ :: l => a :: evens l | l => l end.
Fixpoint odds {A} (l : list A) : list A := match l with _ :: a :: l => a :: odds l | _ => [] end.
Definition block_mix (B : bytes) : bytes :=
  let l := blocks_of 64 (length B) B in
  let Y := block_mix_go (last l []) l in
  concat (evens Y ++ odds Y).
(** section 5: scryptROMix; Integerify is the last 64-byte block as a little-endian number *)
Fixpoint romix_fill (n : nat) (X : bytes) : list bytes * bytes :=
  match n with O => ([], X) | S n => let (V, Y) := romix_fill n (block_mix X) in (X :: V, Y) end.
Definition integerify (X : bytes) (N : nat) : nat :=
  Z.to_nat (bytes2z LE (skipn (length X - 64) X) mod Z.of_nat N).
Fixpoint romix_mix (n N : nat) (V : list bytes) (X : bytes) : bytes :=
  match n with O => X | S n => romix_mix n N V (block_mix (bxor X (nth (integerify X N) V []))) end.
Definition romix (N : nat) (B : bytes) : bytes := let (V, X) := romix_fill N B in romix_mix N N V X.
(** section 6 *)
Definition scrypt (H : hashes) (N r p : nat) (P S : bytes) (dkLen : nat) : bytes :=
  let B := pbkdf2 H P S (p * 128 * r) in
  pbkdf2 H P (concat (map (romix N) (blocks_of (128 * r) (length B) B))) dkLen.

(** KeyPair.py:12-20 SCRYPT_ITERATIONS = 16384, SCRYPT_BLOCKSIZE = 8, SCRYPT_PARALLEL_FACTOR = 8,
    SCRYPT_KEY_LEN_BYTES = 64 *)
Definition nep2_scrypt (H : hashes) (P S : bytes) : bytes := scrypt H (Z.to_nat 16384) 8 8 P S 64.

(** ** the oracles of M_KeyPair with all of these put in; unicodedata.normalize stays open *)
Definition nep2_lib (H : hashes) (normalize : pystr -> pystr) : keylib :=
  mkKeylib bitcoin_privkey_to_pubkey (nep2_scrypt H) AES_encrypt AES_decrypt normalize.
