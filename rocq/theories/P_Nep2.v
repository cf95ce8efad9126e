(** * P_Nep2: C105, C106: NEP-2 with AES-256 and scrypt themselves *)
From Coq Require Import ZArith Lia ZifyBool List String.
From Verif Require Import M_Py M_Hash M_Base58 M_UInt M_Helper M_ECCurve M_KeyPair M_Bitcoin M_Nep2.
From Verif Require Import L_Bytes L_IO L_EC2 L_Address L_Nep2 L_Nep2b L_Nep2c L_Nep2d S_IO S_IO2 S_Address S_KeyPair S_Signature S_Nep2 P_Helper P_KeyPair P_Bitcoin P_Bitcoin2.
Import ListNotations.
Open Scope Z_scope.
#[local] Opaque n_r1.

(** ** C105 NEP-2 encryption is AES-256 under a key derived by scrypt, and can always be undone *)

(** encrypt is the cipher of FIPS 197, for the three key sizes *)
Theorem C105_aes : forall nk key data, (nk = 4 \/ nk = 6 \/ nk = 8)%nat -> List.length key = (4 * nk)%nat -> zlen data mod 16 = 0 ->
  exists e, AES_encrypt key data = Ok e /\ aes_ecb nk key data e.
Proof. intros nk key data K L D. exact (AES_encrypt_spec key nk data K L D). Qed.
Print Assumptions C105_aes.
(** decrypt undoes encrypt and encrypt undoes decrypt *)
Theorem C105_aes_inverse : forall key data, zlen key = 16 \/ zlen key = 24 \/ zlen key = 32 -> zlen data mod 16 = 0 ->
  (exists e, AES_encrypt key data = Ok e /\ List.length e = List.length data /\ AES_decrypt key e = Ok data) /\
  (exists d, AES_decrypt key data = Ok d /\ List.length d = List.length data /\ AES_encrypt key d = Ok data).
Proof. intros key data K D. split; [exact (AES_decrypt_encrypt key data K D)|exact (AES_encrypt_decrypt key data K D)]. Qed.
Print Assumptions C105_aes_inverse.
(** any other key size, and data that is no whole number of blocks *)
Theorem C105_aes_errors : forall key data, (zlen key <> 16 /\ zlen key <> 24 /\ zlen key <> 32) \/ zlen data mod 16 <> 0 ->
  AES_encrypt key data = Raise ValueError /\ AES_decrypt key data = Raise ValueError.
Proof.
  intros key data B. unfold AES_encrypt, AES_decrypt, ecb.
  destruct ((zlen key =? 16) || (zlen key =? 24) || (zlen key =? 32)) eqn:K; cbn [negb]; [|split; reflexivity].
  destruct (zlen data mod 16 =? 0) eqn:D; cbn [negb]; [exfalso; lia|split; reflexivity].
Qed.
Print Assumptions C105_aes_errors.
(** the standard's relation is a bijection: no data has two encryptions under one key, and no two data have one *)
Lemma ecb_blocks nk key d e : aes_ecb nk key d e -> zlen d mod 16 = 0.
Proof. induction 1 as [|b o d e Lb _ _ _ IH]; [reflexivity|]. rewrite zlen_app. unfold zlen at 1. rewrite Lb. change (Z.of_nat 16) with (1 * 16). rewrite Z.add_comm, Z_mod_plus_full. exact IH. Qed.
Theorem C105_aes_unique : forall nk key d e d' e', (nk = 4 \/ nk = 6 \/ nk = 8)%nat -> List.length key = (4 * nk)%nat ->
  aes_ecb nk key d e -> aes_ecb nk key d' e' -> (d = d' <-> e = e').
Proof.
  intros nk key d e d' e' K L A A'. assert (NK : (0 < nk)%nat) by lia. split.
  - intros <-. exact (aes_ecb_unique nk key d e NK A e' A').
  - intros <-. assert (KL : zlen key = 16 \/ zlen key = 24 \/ zlen key = 32) by (unfold zlen; lia).
    assert (D : forall x, aes_ecb nk key x e -> AES_decrypt key e = Ok x).
    { intros x X. pose proof (ecb_blocks _ _ _ _ X) as B. destruct (C105_aes nk key x K L B) as (f & F & FS). rewrite (aes_ecb_unique nk key x f NK FS e X) in F.
      destruct (proj1 (C105_aes_inverse key x KL B)) as (g & G & _ & GD). assert (g = e) as -> by congruence. exact GD. }
    pose proof (D d A) as D1. pose proof (D d' A') as D2. congruence.
Qed.
Print Assumptions C105_aes_unique.
(** encrypt and decrypt, exactly: [Ok] with e if and only if the standard relates them *)
Theorem C105_aes_exact : forall nk key d e, (nk = 4 \/ nk = 6 \/ nk = 8)%nat -> List.length key = (4 * nk)%nat ->
  (AES_encrypt key d = Ok e <-> aes_ecb nk key d e) /\ (AES_decrypt key e = Ok d <-> aes_ecb nk key d e).
Proof.
  intros nk key d e K L. assert (NK : (0 < nk)%nat) by lia. assert (KL : zlen key = 16 \/ zlen key = 24 \/ zlen key = 32) by (unfold zlen; lia).
  assert (E1 : AES_encrypt key d = Ok e <-> aes_ecb nk key d e).
  { split.
    - intros E. destruct (Z.eq_dec (zlen d mod 16) 0) as [B|B]; [|destruct (C105_aes_errors key d (or_intror B)); congruence].
      destruct (C105_aes nk key d K L B) as (f & F & FS). assert (f = e) as -> by congruence. exact FS.
    - intros A. destruct (C105_aes nk key d K L (ecb_blocks _ _ _ _ A)) as (f & F & FS). rewrite (aes_ecb_unique nk key d f NK FS e A) in F. exact F. }
  split; [exact E1|]. rewrite <- E1. split; intros E.
  - destruct (Z.eq_dec (zlen e mod 16) 0) as [B|B]; [|destruct (C105_aes_errors key e (or_intror B)); congruence].
    destruct (proj2 (C105_aes_inverse key e KL B)) as (f & F & _ & FS). assert (f = d) as -> by congruence. exact FS.
  - destruct (Z.eq_dec (zlen d mod 16) 0) as [B|B]; [|destruct (C105_aes_errors key d (or_intror B)); congruence].
    destruct (proj1 (C105_aes_inverse key d KL B)) as (f & F & _ & FS). assert (f = e) as -> by congruence. exact FS.
Qed.
Print Assumptions C105_aes_exact.

(** scrypt is the function of RFC 7914, within the RFC's bounds on the lengths *)
Theorem C105_scrypt : forall H N r p P S n, hash_ok H -> (0 < r)%nat -> (0 < N)%nat ->
  Z.of_nat (p * (128 * r)) <= (2 ^ 32 - 1) * 32 -> Z.of_nat n <= (2 ^ 32 - 1) * 32 ->
  scrypt_is H N r p P S (scrypt H N r p P S n) /\ List.length (scrypt H N r p P S n) = n.
Proof. intros H N r p P S n. apply scrypt_spec. Qed.
Print Assumptions C105_scrypt.
(** no other bytes of that length are related: scrypt's output is the standard's, exactly *)
Theorem C105_scrypt_exact : forall H N r p P S out, hash_ok H -> (0 < r)%nat -> (0 < N)%nat ->
  Z.of_nat (p * (128 * r)) <= (2 ^ 32 - 1) * 32 -> Z.of_nat (List.length out) <= (2 ^ 32 - 1) * 32 ->
  (scrypt_is H N r p P S out <-> out = scrypt H N r p P S (List.length out)).
Proof.
  intros H N r p P S out O R Np B1 B2. destruct (C105_scrypt H N r p P S (List.length out) O R Np B1 B2) as [A L].
  split; [intros A'; exact (scrypt_unique H N r p P S out _ R (eq_sym L) A' A)|intros ->; exact A].
Qed.
Print Assumptions C105_scrypt_exact.
Lemma nep2_scrypt_ok H P S : hash_ok H -> scrypt_is H (Z.to_nat 16384) 8 8 P S (nep2_scrypt H P S) /\ List.length (nep2_scrypt H P S) = 64%nat.
Proof.
  intros O. unfold nep2_scrypt. apply C105_scrypt; [exact O|lia|lia| |]; rewrite ?Nat2Z.inj_mul; vm_compute; discriminate.
Qed.

(** the assumptions of C52, C53 about the libraries hold of the libraries *)
Theorem C105_keylib : forall H normalize, hash_ok H -> keylib_ok (nep2_lib H normalize).
Proof.
  intros H nf O. split; [|split; [|split; [|split]]].
  - intros c k b. cbn [privkey_to_pubkey nep2_lib]. unfold bitcoin_privkey_to_pubkey. destruct (_ >=? _); [discriminate|]. destruct (fast_multiply _ _ _) as [x y]. intros X.
    assert (b = x04 :: z2bytes BE 32 x ++ z2bytes BE 32 y) as -> by congruence. cbn [List.length]. rewrite app_length, !z2bytes_length. reflexivity.
  - intros p s. cbn [scrypt_hash nep2_lib]. apply nep2_scrypt_ok, O.
  - intros k d Lk D. cbn [aes_encrypt aes_decrypt nep2_lib]. apply AES_decrypt_encrypt; [unfold zlen; lia|exact D].
  - intros k d Lk D. cbn [aes_decrypt nep2_lib]. destruct (AES_encrypt_decrypt k d) as (e & E & L & _); [unfold zlen; lia|exact D|]. exists e. auto.
  - intros k d Lk D. cbn [aes_decrypt nep2_lib]. apply C105_aes_errors. right. exact D.
Qed.
Print Assumptions C105_keylib.

(** the text ExportNEP2 writes *)
Theorem C105_text : forall H normalize v k pass pwd, hash_ok H -> bytes_arg v k -> List.length k = 32%nat -> 0 < num_be k < n_r1 -> 2 <= zlen pass ->
  utf8_encode (normalize pass) = Ok pwd ->
  exists kp a t, new_KeyPair H (nep2_lib H normalize) v = Ok kp /\ GetAddress H kp = Ok a /\ ExportNEP2 H (nep2_lib H normalize) kp pass = Ok t /\
    exists derived xk enc,
      let ah := firstn 4 (sha256 H (sha256 H (map z2b a))) in
      scrypt_is H (Z.to_nat 16384) 8 8 pwd ah derived /\ List.length derived = 64%nat /\
      xored k (firstn 32 derived) xk /\ aes_ecb 8 (skipn 32 derived) xk enc /\ B58Check H ([x01; x42; xe0] ++ ah ++ enc) t.
Proof.
  intros H nf v k pass pwd O A Lk B Lp U. set (L := nep2_lib H nf). destruct (C99_address H L v k O A Lk B) as (kp & a & Ek & Ep & Ga & _).
  change (real_keys L) with L in Ek. assert (Pk : kp_PrivateKey kp = k).
  { assert (Ek' : new_KeyPair H (real_keys L) v = Ok kp) by exact Ek. destruct (proj1 (C99_public_key H L v k O A Lk) ltac:(lia)) as (h & Eh). assert (kp = mkKeyPair k (r1_times (num_be k) G256) h) as -> by congruence. reflexivity. }
  destruct (C52_export H L kp a pass pwd O (C105_keylib H nf O) ltac:(rewrite Pk; exact Lk) Ga Lp U) as (t & Et & N & _).
  exists kp, a, t. split; [exact Ek|]. split; [exact Ga|]. split; [exact Et|]. destruct N as (xk & enc & X & E & T). rewrite Pk in X. cbn [scrypt_hash L nep2_lib] in X, E. exists (nep2_scrypt H pwd (checksum H (map z2b a))), xk, enc. destruct (nep2_scrypt_ok H pwd (checksum H (map z2b a)) O) as (Sc & Ls). split; [exact Sc|]. split; [exact Ls|]. split; [exact X|]. split; [|exact T].
  cbn [aes_encrypt L nep2_lib] in E. set (d2 := skipn 32 _) in *.
  assert (L2 : List.length d2 = 32%nat) by (unfold d2; rewrite skipn_length, Ls; reflexivity).
  clearbody d2. destruct X as (_ & Lx & _). destruct (AES_encrypt_spec d2 8 xk) as (e & E' & S); [auto|exact L2|unfold zlen; rewrite Lx, Lk; reflexivity|]. assert (e = enc) as -> by congruence. exact S.
Qed.
Print Assumptions C105_text.

(** and back: nothing is assumed of the cipher, the key derivation and the curve library *)
Theorem C105_roundtrip : forall H normalize rs v k pass pass' pwd, hash_ok H -> bytes_arg v k -> List.length k = 32%nat -> 0 < num_be k < n_r1 -> 2 <= zlen pass ->
  utf8_encode (normalize pass) = Ok pwd -> normalize pass' = normalize pass ->
  exists kp t, new_KeyPair H (nep2_lib H normalize) v = Ok kp /\ ExportNEP2 H (nep2_lib H normalize) kp pass = Ok t /\
    PrivateKeyFromNEP2 H (nep2_lib H normalize) rs (VStr t) pass' = Ok k.
Proof.
  intros H nf rs v k pass pass' pwd O A Lk B Lp U E.
  exact (C99_nep2 H (nep2_lib H nf) rs v k pass pass' pwd O (C105_keylib H nf O) A Lk B Lp U E).
Qed.
Print Assumptions C105_roundtrip.

Lemma be_inj a b : List.length a = List.length b -> num_be a = num_be b -> a = b.
Proof. intros L E. rewrite !num_be_eq in E. rewrite <- (rev_involutive a), <- (rev_involutive b). f_equal. apply le2z_inj; [rewrite !rev_length; exact L|exact E]. Qed.
(** What an import of any Base58Check text of 58 characters does with any passphrase: the last 32
    bytes are decrypted to a candidate key, and the outcome depends on its number and address. *)
Theorem C105_open : forall H normalize rs t payload pass pwd, hash_ok H -> B58Check H payload t -> zlen t = 58 -> utf8_encode (normalize pass) = Ok pwd ->
  exists derived dec k,
    let ah := firstn 4 (skipn 3 payload) in
    let r := PrivateKeyFromNEP2 H (nep2_lib H normalize) rs (VStr t) pass in
    scrypt_is H (Z.to_nat 16384) 8 8 pwd ah derived /\ List.length derived = 64%nat /\
    aes_ecb 8 (skipn 32 derived) dec (skipn (List.length payload - 32) payload) /\ xored dec (firstn 32 derived) k /\ List.length k = 32%nat /\
    (num_be k = 0 -> r = Raise BinasciiError) /\
    (n_r1 <= num_be k -> r = Raise PlainException) /\
    (0 < num_be k < n_r1 -> exists a, key_address H (fst (r1_times (num_be k) G256)) (snd (r1_times (num_be k) G256)) a /\
       let ah' := firstn 4 (sha256 H (sha256 H (map z2b a))) in (ah' = ah -> r = Ok k) /\ (ah' <> ah -> r = Raise ValueError)).
Proof.
  intros H nf rs t payload pass pwd O B Lt U. set (L := nep2_lib H nf).
  assert (Lp : (32 <= List.length payload)%nat).
  { pose proof (B58_58_long _ _ B Lt) as K. rewrite zlen_app in K. unfold zlen in K. rewrite (checksum_length H payload O) in K. lia. }
  set (ah := firstn 4 (skipn 3 payload)). set (derived := nep2_scrypt H pwd ah). destruct (nep2_scrypt_ok H pwd ah O) as (Sc & Ls). fold derived in Sc, Ls.
  set (encrypted := skipn (List.length payload - 32) payload).
  assert (Le : List.length encrypted = 32%nat) by (unfold encrypted; rewrite skipn_length; lia).
  assert (L2 : List.length (skipn 32 derived) = 32%nat) by (rewrite skipn_length, Ls; reflexivity).
  destruct (proj2 (C105_aes_inverse (skipn 32 derived) encrypted ltac:(right; right; unfold zlen; rewrite L2; reflexivity) ltac:(unfold zlen; rewrite Le; reflexivity))) as (dec & Ad & Ld & Ae).
  assert (Sp : aes_ecb 8 (skipn 32 derived) dec encrypted).
  { destruct (AES_encrypt_spec (skipn 32 derived) 8 dec) as (e & E' & S); [auto|exact L2|unfold zlen; rewrite Ld, Le; reflexivity|]. assert (e = encrypted) as <- by congruence. exact S. }
  destruct (xor_bytes (VBytes dec) (VBytes (firstn 32 derived))) as [k|ex] eqn:X.
  2:{ exfalso. cbn [xor_bytes] in X. unfold zlen in X. rewrite Ld, Le, firstn_length, Ls in X. discriminate. }
  pose proof (proj1 (xor_bytes_xored _ _ _) X) as Xs. assert (Lk : List.length k = 32%nat). { destruct Xs as (_ & Xs & _). rewrite Ld, Le in Xs. exact Xs. }
  exists derived, dec, k. cbv zeta. fold ah. split; [exact Sc|]. split; [exact Ls|]. split; [exact Sp|]. split; [exact Xs|]. split; [exact Lk|].
  assert (R : PrivateKeyFromNEP2 H L rs (VStr t) pass =
    (do kp <- new_KeyPair H L (VBytes k); do a <- GetAddress H kp; do h <- address_hash H a; if list_eq_dec Byte.byte_eq_dec h ah then Ok k else Raise ValueError)).
  { unfold PrivateKeyFromNEP2. rewrite (truthy_text (VStr t) t (text_str t)) by lia. cbn [negb]. rewrite (arg_len (VStr t) t (text_str t)). cbn [rbind]. rewrite Lt. cbn [Z.eqb Pos.eqb negb].
    unfold b58decode_check. assert (D : b58decode rs (VStr t) = Ok (payload ++ checksum H payload)).
    { apply (decode_arg rs (VStr t) t _ (text_str t)); [eapply B58_nonneg; exact B|]. exists t. split; [eapply B58_self_trim; [apply chars_not_white|exact B]|exact B]. }
    rewrite D. cbn [rbind]. destruct (split_checksum H (payload ++ checksum H payload) O) as [S1 S2]. rewrite (S2 payload eq_refl) in S1 |- *.
    destruct (list_eq_dec _ _ _) as [_|N]; [|exfalso; apply N, S1; eauto]. cbn [rbind]. change (List.length NEP_FLAG + List.length NEP_HEADER)%nat with 3%nat.
    change (slice 3 (3 + 4) payload) with ah. change (last_n 32 payload) with encrypted.
    change (nfc L pass) with (nf pass). rewrite U. cbn [rbind]. change (scrypt_hash L pwd ah) with derived. change (aes_decrypt L) with AES_decrypt. rewrite Ad. cbn [rbind].
    rewrite X. reflexivity. }
  clearbody derived encrypted. clear X Xs Ad Ae Sp Ld.
  destruct (Z.eq_dec (num_be k) 0) as [K0|K0]; [|destruct (Z_lt_le_dec (num_be k) n_r1) as [K1|K1]].
  - assert (k = repeat x00 32) as -> by (apply (be_inj k (repeat x00 32)); [rewrite Lk; reflexivity|exact K0]).
    destruct (C99_zero_key H L (VBytes (repeat x00 32)) O (bytes_b _)) as (kp & N & _ & Ga & _). change (real_keys L) with L in N.
    split; [intros _|split; intros Q; exfalso; rewrite K0 in Q; pose proof n_pos; lia]. rewrite R, N. cbn [rbind]. rewrite Ga. reflexivity.
  - split; [contradiction|]. split; [lia|]. intros _. pose proof (num_be_bound k) as K2.
    destruct (C99_address H L (VBytes k) k O (bytes_b k) Lk ltac:(lia)) as (kp & a & N & _ & Ga & _ & Ka). change (real_keys L) with L in N. exists a. split; [exact Ka|].
    rewrite R, N. cbn [rbind]. rewrite Ga. cbn [rbind]. rewrite (address_hash_ok H a (GetAddress_chars H kp a Ga)). cbn [rbind].
    change (firstn 4 (sha256 H (sha256 H (map z2b a)))) with (checksum H (map z2b a)).
    destruct (list_eq_dec _ _ _) as [E|E]; split; intros Q; try reflexivity; congruence.
  - split; [intros Q; contradiction|]. split; [intros _|lia]. rewrite R.
    pose proof (proj2 (C99_public_key H L (VBytes k) k O (bytes_b k) Lk) K1) as N. change (real_keys L) with L in N. rewrite N. reflexivity.
Qed.
Print Assumptions C105_open.

(** ** C106 different passphrases that are the same NEP-2 key *)
(** HMAC pads short keys with zero bytes and hashes long ones, so scrypt cannot tell apart: *)
Lemma hmac_zeros H key j msg : (List.length key + j <= 64)%nat -> hmac_any H (key ++ repeat x00 j) msg = hmac_any H key msg.
Proof.
  intros L. unfold hmac_any. rewrite app_length, repeat_length. replace (64 <? _)%nat with false by (symmetry; apply Nat.ltb_ge; lia). replace (64 <? _)%nat with false by (symmetry; apply Nat.ltb_ge; lia).
  unfold hmac_sha256. replace ((key ++ repeat x00 j) ++ repeat x00 (64 - List.length (key ++ repeat x00 j))) with (key ++ repeat x00 (64 - List.length key)); [reflexivity|].
  rewrite <- app_assoc, <- repeat_app. rewrite app_length, repeat_length. do 2 f_equal. lia.
Qed.
Lemma hmac_long H key msg : hash_ok H -> (64 < List.length key)%nat -> hmac_any H (sha256 H key) msg = hmac_any H key msg.
Proof.
  intros (O & _) L. unfold hmac_any. rewrite O. replace (64 <? 32)%nat with false by reflexivity. replace (64 <? _)%nat with true by (symmetry; apply Nat.ltb_lt; lia). reflexivity.
Qed.
Lemma scrypt_hmac H N r p P P' S n : (forall m, hmac_any H P' m = hmac_any H P m) -> scrypt H N r p P' S n = scrypt H N r p P S n.
Proof.
  intros E. assert (B : forall S m i, pbkdf2_blocks H P' S m i = pbkdf2_blocks H P S m i). { clear S n. intros S m. induction m as [|m IH]; intros i; [reflexivity|]. cbn [pbkdf2_blocks]. rewrite E, IH. reflexivity. }
  assert (B' : forall S n, pbkdf2 H P' S n = pbkdf2 H P S n) by (intros; unfold pbkdf2; rewrite B; reflexivity). unfold scrypt. rewrite !B'. reflexivity.
Qed.
Theorem C106_scrypt : forall H N r p P S n,
  (forall j, (List.length P + j <= 64)%nat -> scrypt H N r p (P ++ repeat x00 j) S n = scrypt H N r p P S n) /\
  (hash_ok H -> (64 < List.length P)%nat -> scrypt H N r p (sha256 H P) S n = scrypt H N r p P S n).
Proof.
  intros H N r p P S n. split; [intros j L|intros O L]; apply scrypt_hmac; intros m; [apply hmac_zeros, L|apply hmac_long; assumption].
Qed.
Print Assumptions C106_scrypt.
(** [one_key H p p']: the two passwords differ in zero bytes at the end and have at most 64 bytes,
    or one of them has more than 64 bytes and the other is its SHA-256 digest *)
Inductive one_key (H : hashes) : bytes -> bytes -> Prop :=
| zeros_at_end p j : (List.length p + j <= 64)%nat -> one_key H p (p ++ repeat x00 j)
| digest_of_long p : (64 < List.length p)%nat -> one_key H p (sha256 H p).
Lemma one_key_scrypt H p p' S : hash_ok H -> one_key H p p' -> nep2_scrypt H p' S = nep2_scrypt H p S.
Proof. intros O [q j L|q L]; unfold nep2_scrypt; [apply C106_scrypt, L|apply C106_scrypt; assumption]. Qed.
(** Every text is opened, or refused, alike *)
Theorem C106_import : forall H normalize rs v pass pass' pwd pwd', hash_ok H ->
  utf8_encode (normalize pass) = Ok pwd -> utf8_encode (normalize pass') = Ok pwd' -> one_key H pwd pwd' ->
  PrivateKeyFromNEP2 H (nep2_lib H normalize) rs v pass' = PrivateKeyFromNEP2 H (nep2_lib H normalize) rs v pass.
Proof.
  intros H nf rs v pass pass' pwd pwd' O U U' K. unfold PrivateKeyFromNEP2. cbn [nfc nep2_lib scrypt_hash]. rewrite U, U'. cbn [rbind].
  destruct (negb (truthy v)); [reflexivity|]. destruct (py_len v) as [z|e]; [|reflexivity]. cbn [rbind]. destruct (negb (z =? 58)); [reflexivity|].
  destruct (b58decode_check H rs v) as [b|e]; [|reflexivity]. cbn [rbind]. rewrite (one_key_scrypt H pwd pwd' _ O K). reflexivity.
Qed.
Print Assumptions C106_import.
(** and every key pair is exported alike *)
Theorem C106_export : forall H normalize kp pass pass' pwd pwd', hash_ok H -> 2 <= zlen pass -> 2 <= zlen pass' ->
  utf8_encode (normalize pass) = Ok pwd -> utf8_encode (normalize pass') = Ok pwd' -> one_key H pwd pwd' ->
  ExportNEP2 H (nep2_lib H normalize) kp pass' = ExportNEP2 H (nep2_lib H normalize) kp pass.
Proof.
  intros H nf kp pass pass' pwd pwd' O L L' U U' K. unfold ExportNEP2. cbn [nfc nep2_lib scrypt_hash]. rewrite U, U'. cbn [rbind].
  replace (zlen pass <? 2) with false by lia. replace (zlen pass' <? 2) with false by lia.
  destruct (GetAddress H kp) as [a|e]; [|reflexivity]. cbn [rbind]. destruct (address_hash H a) as [ah|e]; [|reflexivity]. cbn [rbind]. rewrite (one_key_scrypt H pwd pwd' _ O K). reflexivity.
Qed.
Print Assumptions C106_export.
(** an ASCII passphrase and the same with a NUL character at the end, for any normalization that
    leaves ASCII alone (as NFC does) *)
Lemma utf8_ascii s : Forall (fun c => 0 <= c < 128) s -> utf8_encode s = Ok (map z2b s).
Proof.
  intros F. unfold utf8_encode. replace (existsb is_surrogate s) with false.
  - apply (f_equal Ok). induction F as [|c s C F IH]; [reflexivity|]. cbn [utf8_chars map]. rewrite IH. unfold utf8_char. replace (c <? 128) with true by lia. reflexivity.
  - symmetry. induction F as [|c s C F IH]; [reflexivity|]. cbn [existsb]. rewrite IH. unfold is_surrogate. lia.
Qed.
Theorem C106_nul : forall H normalize rs v k pass, hash_ok H -> (forall s, Forall (fun c => 0 <= c < 128) s -> normalize s = s) ->
  bytes_arg v k -> List.length k = 32%nat -> 0 < num_be k < n_r1 -> Forall (fun c => 0 <= c < 128) pass -> 2 <= zlen pass < 64 ->
  exists kp t, new_KeyPair H (nep2_lib H normalize) v = Ok kp /\ ExportNEP2 H (nep2_lib H normalize) kp pass = Ok t /\
    PrivateKeyFromNEP2 H (nep2_lib H normalize) rs (VStr t) pass = Ok k /\
    PrivateKeyFromNEP2 H (nep2_lib H normalize) rs (VStr t) (pass ++ [0]) = Ok k.
Proof.
  intros H nf rs v k pass O N A Lk B F Lp. assert (F' : Forall (fun c => 0 <= c < 128) (pass ++ [0])) by (apply Forall_app; split; [exact F|repeat constructor; lia]).
  assert (U : utf8_encode (nf pass) = Ok (map z2b pass)) by (rewrite N by exact F; apply utf8_ascii, F).
  assert (U' : utf8_encode (nf (pass ++ [0])) = Ok (map z2b pass ++ repeat x00 1)) by (rewrite N by exact F'; rewrite utf8_ascii by exact F'; rewrite map_app; reflexivity).
  destruct (C105_roundtrip H nf rs v k pass pass (map z2b pass) O A Lk B ltac:(lia) U eq_refl) as (kp & t & E & X & I). exists kp, t. split; [exact E|]. split; [exact X|]. split; [exact I|].
  rewrite <- I. apply (C106_import H nf rs (VStr t) pass (pass ++ [0]) _ _ O U U'). apply zeros_at_end. rewrite map_length. unfold zlen in Lp. lia.
Qed.
Print Assumptions C106_nul.

(** ** examples: the vectors of FIPS 197 (C.1 to C.3) and RFC 7914 (section 12), and a key *)
Definition count (n : nat) : bytes := map (fun i => z2b (Z.of_nat i)) (seq 0 n).
Definition fips_text : bytes := map (fun i => z2b (17 * Z.of_nat i)) (seq 0 16).
Example C105_fips197 :
  rmap hex (AES_encrypt (count 16) fips_text) = Ok (str "69c4e0d86a7b0430d8cdb78070b4c55a") /\
  rmap hex (AES_encrypt (count 24) fips_text) = Ok (str "dda97ca4864cdfe06eaf70a0ec0d7191") /\
  rmap hex (AES_encrypt (count 32) fips_text) = Ok (str "8ea2b7ca516745bfeafc49904b496089").
Proof. vm_compute. auto. Qed.
Example C105_rfc7914 : hex (scrypt real_hashes 16 1 1 [] [] 64) =
  str "77d6576238657b203b19ca42c18a0497f16b4844e3074ae8dfdffa3fede21442fcd0069ded0948f8326a753a0fc81f17e8d3e0fb2e0d3628cf35e20c38d18906".
Proof. vm_compute. reflexivity. Qed.
(** a password of 70 bytes, 40 bytes of output (value computed with OpenSSL) *)
Example C105_scrypt_more :
  hex (scrypt real_hashes 2 1 1 (repeat x70 70) (map z2b (str "ab")) 40) =
    str "b3c3b019bb8be1b70250076e0fc9e6220cc8abd97ce08c5960bac29a60e7bfa4c78c50f288a3f246".
Proof. vm_compute. reflexivity. Qed.
(** the hypotheses of C105_roundtrip and C106_nul: the private key 1, the passphrase ab *)
Definition as_is (s : pystr) : pystr := s.
Example C105_example : hash_ok real_hashes /\ bytes_arg (VBytes key1) key1 /\ List.length key1 = 32%nat /\ 0 < num_be key1 < n_r1 /\
  Forall (fun c => 0 <= c < 128) (str "ab") /\ 2 <= zlen (str "ab") < 64 /\
  (forall s, Forall (fun c => 0 <= c < 128) s -> as_is s = s) /\
  exists t, (do kp <- new_KeyPair real_hashes (nep2_lib real_hashes as_is) (VBytes key1); ExportNEP2 real_hashes (nep2_lib real_hashes as_is) kp (str "ab")) = Ok t /\
    PrivateKeyFromNEP2 real_hashes (nep2_lib real_hashes as_is) true (VStr t) (str "ab") = Ok key1 /\
    PrivateKeyFromNEP2 real_hashes (nep2_lib real_hashes as_is) true (VStr t) [97; 98; 0] = Ok key1.
Proof.
  assert (O : hash_ok real_hashes) by exact real_hashes_ok. assert (B : 0 < num_be key1 < n_r1) by (split; reflexivity). assert (A : bytes_arg (VBytes key1) key1) by constructor.
  assert (F : Forall (fun c => 0 <= c < 128) (str "ab")) by (repeat constructor; discriminate).
  split; [exact O|]. split; [exact A|]. split; [reflexivity|]. split; [exact B|]. split; [exact F|]. split; [cbn; lia|]. split; [reflexivity|].
  destruct (C106_nul real_hashes as_is true (VBytes key1) key1 (str "ab") O (fun s _ => eq_refl) A eq_refl B F ltac:(cbn; lia)) as (kp & t & E & X & I & I'). exists t. split; [rewrite E; cbn [rbind]; exact X|]. split; [exact I|exact I'].
Qed.
Print Assumptions C105_example.
