(** * P_Bitcoin: C99-C101 (key derivation, signing and verifying with the real libraries) *)
From Coq Require Import ZArith Znumtheory Lia ZifyBool List String.
From Verif Require Import M_Py M_Hash M_Float M_Base58 M_UInt M_Helper M_ECCurve M_KeyPair M_Crypto M_Bitcoin.
From Verif Require Import L_Bytes L_IO L_Hex L_Prime L_Prime2 L_Field L_EC L_EC2 L_EC3 L_Crypto L_Mult L_Order L_Bitcoin L_Ecdsa S_IO S_IO2 S_EC S_Address S_KeyPair S_Crypto S_Group S_Signature P_Helper P_KeyPair P_Crypto P_Group.
Import ListNotations.
Open Scope Z_scope.

(** ** the curve of both libraries is secp256r1 *)
Lemma E_r1 : elliptic secp256r1. Proof. exact (proj1 C85_named). Qed.
Lemma G_r1 : point_of secp256r1 G256. Proof. exact (proj1 (proj2 (proj2 C85_named))). Qed.
Lemma n_eq : n_r1 = n256r1. Proof. reflexivity. Qed.
Lemma prime_n : prime n_r1. Proof. rewrite n_eq. exact prime_n256r1. Qed.
Lemma p_eq : c_p secp256r1 = p256. Proof. reflexivity. Qed.
Lemma y_r1 Q : point_of secp256r1 Q -> Q <> (0, 0) -> ~ cong (c_p secp256r1) (snd Q) 0.
Proof.
  intros HQ N C. pose proof (L_Fp2.not_origin secp256r1 Q HQ N) as EQ. apply (r1_no_root (fst Q)). unfold equation in EQ. rewrite same_cong in EQ. rewrite <- EQ, C. reflexivity.
Qed.
Lemma setup_n : cp_n setup_curve = n_r1. Proof. reflexivity. Qed.
Lemma setup_p : cp_p setup_curve = c_p secp256r1. Proof. exact (proj1 setup_same). Qed.
Lemma setup_a : same (c_p secp256r1) (cp_a setup_curve) (c_a secp256r1).
Proof. rewrite (proj1 (proj2 setup_same)). apply cong_refl. Qed.
Lemma setup_G : cp_G setup_curve = G256. Proof. exact (proj2 (proj2 (proj2 setup_same))). Qed.
Lemma nist_p : f_p nist256 = c_p secp256r1. Proof. vm_compute. reflexivity. Qed.
Lemma nist_a : same (c_p secp256r1) (f_a nist256) (c_a secp256r1). Proof. exists (-1). vm_compute. reflexivity. Qed.
Lemma nist_b : same (c_p secp256r1) (f_b nist256) (c_b secp256r1). Proof. exists 0. vm_compute. reflexivity. Qed.
Lemma nist_n : nist256_order = n_r1. Proof. reflexivity. Qed.
Lemma nist_G : nist256_generator = Some G256. Proof. reflexivity. Qed.
Lemma n_pos : 1 < n_r1. Proof. reflexivity. Qed.
Lemma n_lt_p : n_r1 < c_p secp256r1. Proof. reflexivity. Qed.
Lemma p_lt : c_p secp256r1 < 2 ^ 256. Proof. reflexivity. Qed.
#[local] Opaque n_r1.

Lemma r1_pt k Q : point_of secp256r1 Q -> point_of secp256r1 (r1_times k Q).
Proof. apply times_pt, E_r1. Qed.
Lemma r1_bounds Q : point_of secp256r1 Q -> 0 <= fst Q < 2 ^ 256 /\ 0 <= snd Q < 2 ^ 256.
Proof. intros [[A B] _]. pose proof p_lt. lia. Qed.
Lemma r1_order : forall j k, 0 <= j -> 0 <= k -> (r1_times j G256 = r1_times k G256 <-> (n_r1 | j - k)).
Proof. exact (proj2 (C87_order secp256r1 G256 n256r1 (or_introl (conj eq_refl (conj eq_refl eq_refl))))). Qed.
Lemma r1_inf k : 0 <= k -> (r1_times k G256 = (0, 0) <-> (n_r1 | k)).
Proof. intros K. rewrite <- (Z.sub_0_r k) at 2. rewrite <- (r1_order k 0 K ltac:(lia)). reflexivity. Qed.
Lemma mult_r1 d : fast_multiply setup_curve (cp_G setup_curve) d = r1_times (if (d <? 0) || (d >=? n_r1) then d mod n_r1 else d) G256.
Proof.
  rewrite setup_G. rewrite (fast_multiply_ok secp256r1 setup_curve E_r1 setup_p setup_a y_r1 G256 d G_r1); rewrite setup_n; [reflexivity|exact n_pos].
Qed.

(** ** C99 key derivation *)
Lemma pub_small k : num_be k < n_r1 -> exists xb yb, bitcoin_privkey_to_pubkey setup_curve k = Ok (x04 :: xb ++ yb) /\ be32 (fst (r1_times (num_be k) G256)) xb /\ be32 (snd (r1_times (num_be k) G256)) yb.
Proof.
  intros B. pose proof (num_be_bound k) as [B0 _]. unfold bitcoin_privkey_to_pubkey. rewrite <- num_be_bytes2z, setup_n. replace (num_be k >=? n_r1) with false by lia.
  rewrite mult_r1. replace ((num_be k <? 0) || (num_be k >=? n_r1)) with false by lia. destruct (r1_bounds _ (r1_pt (num_be k) G256 G_r1)) as (X & Y).
  destruct (r1_times (num_be k) G256) as [x y]. cbn [fst snd] in *. do 2 eexists. split; [reflexivity|]. split; apply be32_z2bytes; assumption.
Qed.
(** KeyPair(k) for 32 bytes below the order: the public key is the k-fold sum of the base point,
    and PrivateKey is k; otherwise an Exception *)
Theorem C99_public_key : forall H L v k, hash_ok H -> bytes_arg v k -> length k = 32%nat ->
  (num_be k < n_r1 -> exists h, new_KeyPair H (real_keys L) v = Ok (mkKeyPair k (r1_times (num_be k) G256) h)) /\
  (n_r1 <= num_be k -> new_KeyPair H (real_keys L) v = Raise PlainException).
Proof.
  intros H L v k O A Lk. split; intros B.
  - destruct (pub_small k B) as (xb & yb & P & [Lx X] & [Ly Y]). destruct (C71_private H (real_keys L) v k x04 xb yb O A Lk P Lx Ly) as (h & Eh & _).
    exists h. rewrite Eh, X, Y. destruct (r1_times (num_be k) G256); reflexivity.
  - apply (C71_private_fails H (real_keys L) v k PlainException A Lk). cbn [privkey_to_pubkey real_keys]. unfold bitcoin_privkey_to_pubkey. rewrite <- num_be_bytes2z, setup_n. replace (num_be k >=? n_r1) with true by lia. reflexivity.
Qed.
Print Assumptions C99_public_key.
(** the public key is a point of the curve, infinity exactly for the key 0 *)
Theorem C99_point : forall H L v k kp, hash_ok H -> bytes_arg v k -> length k = 32%nat -> new_KeyPair H (real_keys L) v = Ok kp ->
  point_of secp256r1 (kp_PublicKey kp) /\ (kp_PublicKey kp = (0, 0) <-> num_be k = 0) /\ kp_PrivateKey kp = k /\ num_be k < n_r1.
Proof.
  intros H L v k kp O A Lk Ek. destruct (C99_public_key H L v k O A Lk) as (S & F). destruct (Z.lt_ge_cases (num_be k) n_r1) as [B|B]; [|rewrite (F B) in Ek; discriminate].
  destruct (S B) as (h & Eh). assert (kp = mkKeyPair k (r1_times (num_be k) G256) h) as -> by congruence. cbn [kp_PublicKey kp_PrivateKey].
  split; [apply r1_pt, G_r1|]. split; [|split; [reflexivity|exact B]]. pose proof (num_be_bound k) as [B0 _]. rewrite (r1_inf _ B0). split.
  - intros [q D]. pose proof n_pos. assert (q = 0) by nia. lia.
  - intros ->. apply Z.divide_0_r.
Qed.
Print Assumptions C99_point.
(** different private keys have different public keys *)
Theorem C99_injective : forall H H' L L' v v' k k' kp kp', hash_ok H -> hash_ok H' -> bytes_arg v k -> bytes_arg v' k' -> length k = 32%nat -> length k' = 32%nat ->
  new_KeyPair H (real_keys L) v = Ok kp -> new_KeyPair H' (real_keys L') v' = Ok kp' -> kp_PublicKey kp = kp_PublicKey kp' -> k = k'.
Proof.
  intros H H' L L' v v' k k' kp kp' O O' A A' Lk Lk' Ek Ek' Q.
  destruct (C99_point H L v k kp O A Lk Ek) as (_ & _ & _ & B). destruct (C99_point H' L' v' k' kp' O' A' Lk' Ek') as (_ & _ & _ & B').
  destruct (proj1 (C99_public_key H L v k O A Lk) B) as (h & Eh). destruct (proj1 (C99_public_key H' L' v' k' O' A' Lk') B') as (h' & Eh').
  assert (kp = mkKeyPair k (r1_times (num_be k) G256) h) as -> by congruence. assert (kp' = mkKeyPair k' (r1_times (num_be k') G256) h') as -> by congruence. cbn [kp_PublicKey] in Q.
  pose proof (num_be_bound k) as [B0 _]. pose proof (num_be_bound k') as [B0' _]. apply (r1_order _ _ B0 B0') in Q.
  assert (E : num_be k = num_be k'). { destruct Q as [q Q]. pose proof n_pos. assert (q = 0) by nia. lia. }
  apply (be32_inj (num_be k)); split; try assumption; [reflexivity|symmetry; exact E].
Qed.
Print Assumptions C99_injective.
(** public keys add as private keys do *)
Theorem C99_sum : forall H L v v' v2 k k' k2 kp kp' kp2, hash_ok H -> bytes_arg v k -> bytes_arg v' k' -> bytes_arg v2 k2 -> length k = 32%nat -> length k' = 32%nat -> length k2 = 32%nat ->
  new_KeyPair H (real_keys L) v = Ok kp -> new_KeyPair H (real_keys L) v' = Ok kp' -> new_KeyPair H (real_keys L) v2 = Ok kp2 ->
  (r1_add (kp_PublicKey kp) (kp_PublicKey kp') = kp_PublicKey kp2 <-> num_be k2 = (num_be k + num_be k') mod n_r1).
Proof.
  assert (Get : forall H L v k kp, hash_ok H -> bytes_arg v k -> length k = 32%nat -> new_KeyPair H (real_keys L) v = Ok kp -> kp_PublicKey kp = r1_times (num_be k) G256 /\ 0 <= num_be k < n_r1).
  { intros H L v k kp O A Lk Ek. destruct (C99_point H L v k kp O A Lk Ek) as (_ & _ & _ & B). destruct (proj1 (C99_public_key H L v k O A Lk) B) as (h & Eh).
    assert (kp = mkKeyPair k (r1_times (num_be k) G256) h) as -> by congruence. split; [reflexivity|]. pose proof (num_be_bound k) as [B0 _]. lia. }
  intros H L v v' v2 k k' k2 kp kp' kp2 O A A' A2 Lk Lk' Lk2 Ek Ek' Ek2.
  destruct (Get _ _ _ _ _ O A Lk Ek) as (-> & B). destruct (Get _ _ _ _ _ O A' Lk' Ek') as (-> & B'). destruct (Get _ _ _ _ _ O A2 Lk2 Ek2) as (-> & B2).
  unfold r1_add, r1_times. rewrite <- (times_add secp256r1 E_r1) by (exact G_r1 || lia). fold r1_add. fold (r1_times (num_be k + num_be k') G256). fold (r1_times (num_be k2) G256).
  rewrite r1_order by lia. pose proof n_pos. split.
  - intros [q D]. apply (Z.mod_unique _ _ q); lia.
  - intros E2. exists ((num_be k + num_be k') / n_r1). pose proof (Z.div_mod (num_be k + num_be k') n_r1 ltac:(lia)). lia.
Qed.
Print Assumptions C99_sum.
(** with this key derivation the assumptions of C52-C54 and C71 hold: only scrypt, AES and NFC
    remain oracles *)
Theorem C99_keylib : forall L, keylib_ok L -> keylib_ok (real_keys L).
Proof.
  intros L (K1 & K2 & K3 & K4 & K5). split; [|split; [exact K2|split; [exact K3|split; [exact K4|exact K5]]]].
  intros c k b. cbn [privkey_to_pubkey real_keys]. unfold bitcoin_privkey_to_pubkey. destruct (_ >=? _); [discriminate|]. destruct (fast_multiply _ _ _) as [x y]. intros X.
  assert (b = x04 :: z2bytes BE 32 x ++ z2bytes BE 32 y) as -> by congruence. cbn [List.length]. rewrite app_length, !z2bytes_length. reflexivity.
Qed.
Print Assumptions C99_keylib.

(** ** C101 which signatures VerifySignature accepts *)
Lemma opt_rep Q : Q <> (0, 0) -> erep secp256r1 (Some Q) Q.
Proof. destruct Q as [x y]. intros N. split; [exact N|]. split; [reflexivity|apply cong_refl]. Qed.
Lemma valid_spec x y : 0 <= x -> 0 <= y -> exists b, point_is_valid x y = Ok b /\ (b = true <-> acceptable_key x y).
Proof.
  intros X Y. unfold point_is_valid. rewrite nist_n. cbv zeta. pose proof n_lt_p as NP. unfold acceptable_key.
  destruct ((x <? 0) || (n_r1 <=? x) || (y <? 0) || (n_r1 <=? y)) eqn:B.
  { exists false. split; [reflexivity|]. split; [discriminate|]. intros (_ & _ & _ & ? & ?). lia. }
  destruct (contains_point nist256 x y) eqn:C; cbn [negb].
  2:{ exists false. split; [reflexivity|]. split; [discriminate|]. intros (P & N & _). exfalso. assert (C' : contains_point nist256 x y = true); [|congruence].
      apply (contains_iff secp256r1 nist256 E_r1 nist_p nist_a nist_b). exact (L_Fp2.not_origin secp256r1 (x, y) P N). }
  unfold new_Point. rewrite C. cbn [rbind]. apply (contains_iff secp256r1 nist256 E_r1 nist_p nist_a nist_b) in C.
  assert (P : point_of secp256r1 (x, y)) by (split; [split; cbn [fst snd]; lia|right; exact C]).
  assert (N : (x, y) <> (0, 0)) by (destruct E_r1 as (_ & _ & _ & e4); exact (L_Fp2.origin_off secp256r1 e4 x y C)).
  pose proof n_pos. destruct (e_mul_ok secp256r1 nist256 E_r1 nist_p nist_a nist_b y_r1 (Some (x, y)) (x, y) None n_r1 P (opt_rep _ N) ltac:(cbv beta iota; lia)) as (r & Er & R).
  rewrite Er. cbn [rbind]. eexists. split; [reflexivity|]. change (multiple (ec_add secp256r1) n_r1 (x, y)) with (r1_times n_r1 (x, y)) in R. destruct r as [[rx ry]|]; cbn [erep] in R.
  - destruct R as (NR & _). split; [discriminate|]. intros (_ & _ & Z & _). tauto.
  - split; [intros _|reflexivity]. repeat (split; [assumption||lia|]). lia.
Qed.
Lemma verifies_spec x y z r s : acceptable_key x y -> 0 <= z -> 0 <= r -> 0 <= s ->
  (verifies (Some (x, y)) z r s = Ok true <-> ecdsa_valid (x, y) z r s) /\
  (verifies (Some (x, y)) z r s = Ok true \/ verifies (Some (x, y)) z r s = Ok false \/ verifies (Some (x, y)) z r s = Raise TypeError).
Proof.
  intros (P & N & O & _) Z R S. unfold verifies. rewrite nist_n. cbv zeta. pose proof n_pos as NP. unfold ecdsa_valid.
  destruct ((r <? 1) || (r >? n_r1 - 1)) eqn:B1; [split; [split; [discriminate|]; intros (? & _); lia|tauto]|].
  destruct ((s <? 1) || (s >? n_r1 - 1)) eqn:B2; [split; [split; [discriminate|]; intros (_ & ? & _); lia|tauto]|].
  assert (NS : ~ cong n_r1 s 0). { intros D. apply cong_0, Z.divide_pos_le in D; lia. }
  destruct (proj1 (inverse_mod_spec s n_r1 NP) (gcd_prime n_r1 s prime_n NS)) as (w & Ew & W). rewrite Ew. cbn [rbind].
  set (u1 := z * w mod n_r1). set (u2 := r * w mod n_r1). rewrite nist_G.
  assert (U1 : u1 mod n_r1 = u1) by (apply Z.mod_mod; lia). assert (U2 : u2 mod n_r1 = u2) by (apply Z.mod_mod; lia).
  destruct (e_mul_ok secp256r1 nist256 E_r1 nist_p nist_a nist_b y_r1 (Some G256) G256 (Some n_r1) u1 G_r1 (opt_rep G256 ltac:(discriminate)) ltac:(cbv beta iota; lia)) as (ra & Ea & Ra).
  destruct (e_mul_ok secp256r1 nist256 E_r1 nist_p nist_a nist_b y_r1 (Some (x, y)) (x, y) (Some n_r1) u2 P (opt_rep _ N) ltac:(cbv beta iota; lia)) as (rb & Eb & Rb).
  rewrite U1 in Ra. rewrite U2 in Rb. rewrite Ea, Eb. cbn [rbind].
  destruct (e_add_ok secp256r1 nist256 E_r1 nist_p nist_a nist_b y_r1 ra rb _ _ (r1_pt u1 G256 G_r1) (r1_pt u2 (x, y) P) Ra Rb) as (rc & Ec & Rc). rewrite Ec. cbn [rbind].
  assert (Eq : (exists w0, same n_r1 (w0 * s) 1 /\ let T := r1_add (r1_times (z * w0 mod n_r1) G256) (r1_times (r * w0 mod n_r1) (x, y)) in T <> (0, 0) /\ same n_r1 (fst T) r) <->
    (let T := r1_add (r1_times u1 G256) (r1_times u2 (x, y)) in T <> (0, 0) /\ same n_r1 (fst T) r)).
  { split; [|intros T; exists w; split; [exact W|exact T]]. intros (w0 & W0 & T).
    assert (C : cong n_r1 w0 w). { apply (cong_cancel n_r1 _ _ s prime_n); [rewrite <- cong_0; exact NS|]. rewrite same_cong in W0. rewrite W0, W. reflexivity. }
    assert (V1 : z * w0 mod n_r1 = u1) by (apply (cong_iff n_r1); [lia|]; rewrite C; reflexivity).
    assert (V2 : r * w0 mod n_r1 = u2) by (apply (cong_iff n_r1); [lia|]; rewrite C; reflexivity). rewrite V1, V2 in T. exact T. }
  rewrite Eq. change (erep secp256r1 rc (r1_add (r1_times u1 G256) (r1_times u2 (x, y)))) in Rc.
  cbv zeta. set (T := r1_add (r1_times u1 G256) (r1_times u2 (x, y))) in *. destruct rc as [[cx cy]|]; cbn [erep] in Rc.
  - destruct Rc as (NT & -> & _). split; [|destruct (fst T mod n_r1 =? r); [left|right; left]; reflexivity].
    assert (M : fst T mod n_r1 = r <-> same n_r1 (fst T) r). { rewrite same_cong, (cong_iff n_r1) by lia. rewrite (Z.mod_small r) by lia. tauto. }
    destruct (Z.eqb_spec (fst T mod n_r1) r) as [D|D]; rewrite <- M.
    + split; [intros _; split; [lia|]; split; [lia|]; split; [exact NT|exact D]|reflexivity].
    + split; [discriminate|tauto].
  - split; [|right; right; reflexivity]. split; [discriminate|]. tauto.
Qed.
(** the verdict of the ecdsa package on a key of 64 bytes: accepted, or an exception *)
Lemma ecdsa_verify_spec H key sg m : List.length key = 64%nat ->
  let accepted := List.length sg = 64%nat /\ acceptable_key (num_be (firstn 32 key)) (num_be (skipn 32 key)) /\
    ecdsa_valid (num_be (firstn 32 key), num_be (skipn 32 key)) (num_be (sha256 H m)) (num_be (firstn 32 sg)) (num_be (skipn 32 sg)) in
  (accepted /\ ecdsa_verify H key sg m = Ok true) \/ (~ accepted /\ exists e, ecdsa_verify H key sg m = Raise e).
Proof.
  intros Lk accepted. unfold ecdsa_verify. rewrite <- !num_be_bytes2z. assert (zlen key = 64) as -> by (unfold zlen; lia). cbn [Z.eqb Pos.eqb negb].
  set (x := num_be (firstn 32 key)) in *. set (y := num_be (skipn 32 key)) in *. set (r := num_be (firstn 32 sg)) in *. set (s := num_be (skipn 32 sg)) in *. set (z := num_be (sha256 H m)) in *.
  pose proof (proj1 (num_be_bound (firstn 32 key))) as X. pose proof (proj1 (num_be_bound (skipn 32 key))) as Y.
  destruct (valid_spec x y X Y) as (b & Eb & B). rewrite Eb. cbn [rbind]. destruct b; cbn [negb].
  2:{ right. split; [|eauto]. intros (_ & A & _). apply B in A. discriminate. }
  assert (A : acceptable_key x y) by (apply B; reflexivity). destruct A as (P & N & O & _).
  rewrite (new_ok secp256r1 nist256 E_r1 nist_p nist_a nist_b (x, y) x y P N eq_refl (cong_refl _ _)). cbn [rbind].
  destruct (Z.eqb_spec (zlen sg) 64) as [Ls|Ls]; cbn [negb].
  2:{ right. split; [|eauto]. intros (Q & _). apply Ls. unfold zlen. rewrite Q. reflexivity. }
  assert (Ls' : List.length sg = 64%nat) by (unfold zlen in Ls; lia).
  destruct (verifies_spec x y z r s (proj1 B eq_refl) (proj1 (num_be_bound _)) (proj1 (num_be_bound _)) (proj1 (num_be_bound _))) as (V & [E|[E|E]]); rewrite E in *; cbn [rbind].
  - left. split; [|reflexivity]. split; [exact Ls'|]. split; [exact (proj1 B eq_refl)|]. apply V. reflexivity.
  - right. split; [|eauto]. intros (_ & _ & Q). apply V in Q. discriminate.
  - right. split; [|eauto]. intros (_ & _ & Q). apply V in Q. discriminate.
Qed.
Lemma ecdsa_verdict H wif key sg m : List.length key = 64%nat -> exists b, verdict (real_sigs H wif) key sg m b /\
  (b = true <-> List.length sg = 64%nat /\ acceptable_key (num_be (firstn 32 key)) (num_be (skipn 32 key)) /\
    ecdsa_valid (num_be (firstn 32 key), num_be (skipn 32 key)) (num_be (sha256 H m)) (num_be (firstn 32 sg)) (num_be (skipn 32 sg))).
Proof.
  intros Lk. destruct (ecdsa_verify_spec H key sg m Lk) as [(A & E)|(A & e & E)]; [exists true|exists false]; (split; [|split; [|]]); cbn [verdict real_sigs]; try discriminate; try tauto.
  - left. exact E.
  - right. split; [exists e; exact E|reflexivity].
Qed.
(** VerifySignature under a 64-byte key returns, in any state and without raising, whether the
    signature has 64 bytes, the key is acceptable and the equation holds for the SHA-256 of the
    message bytes *)
Theorem C101_accepts : forall H wif w v u m signature key, signed_bytes v u m -> List.length key = 64%nat ->
  exists b, wVerifySignature (real_sigs H wif) v signature (KBytes key) u w = (Ok b, w) /\
  (b = true <-> List.length signature = 64%nat /\ acceptable_key (num_be (firstn 32 key)) (num_be (skipn 32 key)) /\
    ecdsa_valid (num_be (firstn 32 key), num_be (skipn 32 key)) (num_be (sha256 H m)) (num_be (firstn 32 signature)) (num_be (skipn 32 signature))).
Proof.
  intros H wif w v u m sg key M Lk. destruct (ecdsa_verdict H wif key sg m Lk) as (b & V & B). exists b. split; [|exact B].
  apply (C74_verdict (real_sigs H wif) w v u m sg key b M); [lia|exact V].
Qed.
Print Assumptions C101_accepts.
(** the same for an ECPoint with coordinates of at most 256 bits *)
Theorem C101_accepts_point : forall H wif w v u m signature x y, signed_bytes v u m -> 0 <= x < 2 ^ 256 -> 0 <= y < 2 ^ 256 ->
  exists b, wVerifySignature (real_sigs H wif) v signature (KPoint (x, y)) u w = (Ok b, w) /\
  (b = true <-> List.length signature = 64%nat /\ acceptable_key x y /\
    ecdsa_valid (x, y) (num_be (sha256 H m)) (num_be (firstn 32 signature)) (num_be (skipn 32 signature))).
Proof.
  intros H wif w v u m sg x y M X Y. pose proof (be32_z2bytes x X) as Bx. pose proof (be32_z2bytes y Y) as By. rewrite (C74_point _ w v u sg x y _ _ Bx By).
  destruct Bx as [Lx Vx], By as [Ly Vy]. set (xb := z2bytes BE 32 x) in *. set (yb := z2bytes BE 32 y) in *.
  destruct (C101_accepts H wif w v u m sg (xb ++ yb) M) as (b & E & B); [rewrite app_length; lia|]. exists b. split; [exact E|].
  rewrite firstn_app, skipn_app, Lx, Nat.sub_diag, firstn_O, app_nil_r, firstn_all2, skipn_all2 in B by lia. cbn [app skipn] in B. rewrite Vx, Vy in B. exact B.
Qed.
Print Assumptions C101_accepts_point.
(** any 33-byte key of a point of the curve, once P-256 is selected *)
Theorem C101_accepts_compressed : forall H wif w v u m signature x y enc, is_secp256r1 (w_curve w) -> signed_bytes v u m ->
  point_of secp256r1 (x, y) -> (x, y) <> (0, 0) -> compressed_key x y enc ->
  exists b, wVerifySignature (real_sigs H wif) v signature (KBytes enc) u w = (Ok b, w) /\
  (b = true <-> List.length signature = 64%nat /\ acceptable_key x y /\
    ecdsa_valid (x, y) (num_be (sha256 H m)) (num_be (firstn 32 signature)) (num_be (skipn 32 signature))).
Proof.
  intros H wif w v u m sg x y enc C M P N K. destruct (r1_bounds _ P) as (X & Y). cbn [fst snd] in X, Y.
  pose proof (L_Fp2.not_origin secp256r1 (x, y) P N) as EQ. cbn [fst snd] in EQ.
  assert (Ec : w_curve w = setup_curve) by apply (r1_setup _ C).
  rewrite (proj2 (C74_compressed (real_sigs H wif) w v u sg x y enc _ _ C ltac:(rewrite Ec, setup_p; exact (proj1 P)) ltac:(rewrite Ec; destruct setup_same as (-> & -> & -> & _); exact EQ) K (be32_z2bytes x X) (be32_z2bytes y Y))).
  exact (C101_accepts_point H wif w v u m sg x y M X Y).
Qed.
Print Assumptions C101_accepts_compressed.

(** ** C100 what Sign returns, and that it verifies *)
Lemma hex_digit_lower ch h : 0 <= h < 16 -> lower ch = hexdigit h -> hex_digit ch = h.
Proof. unfold lower, hexdigit, hex_digit. intros B. destruct (h <? 10) eqn:T; destruct ((65 <=? ch) && (ch <=? 90)) eqn:U; intros E; repeat match goal with |- context [if ?x then _ else _] => destruct x eqn:? end; lia. Qed.
Lemma decode16_spec b : forall t acc, hex_denotes t b -> fold_left (fun r ch => r * 16 + hex_digit ch) t acc = fold_left (fun n b => 256 * n + b2z b) b acc.
Proof.
  unfold hex_denotes. induction b as [|x r IH]; intros t acc E; cbn [hex] in E; destruct t as [|c1 [|c2 t]]; try discriminate; [reflexivity|]. cbn [map] in E.
  assert (E1 : lower c1 = hexdigit (b2z x / 16)) by congruence. assert (E2 : lower c2 = hexdigit (b2z x mod 16)) by congruence. assert (E3 : map lower t = hex r) by congruence.
  pose proof (b2z_range x) as B. cbn [fold_left]. assert (D1 : 0 <= b2z x / 16 < 16) by (split; [apply Z.div_pos; lia|apply Z.div_lt_upper_bound; lia]). rewrite (hex_digit_lower c1 _ D1 E1).
  rewrite (hex_digit_lower _ _ (Z.mod_pos_bound _ 16 ltac:(lia)) E2). rewrite (IH t _ E3). f_equal. pose proof (Z.div_mod (b2z x) 16 ltac:(lia)). lia.
Qed.
Lemma private_decode wif v d : private_number v d -> exists f, decode_privkey wif v = Ok (d, f).
Proof.
  intros [v' b T Lb|v' t b T Hx Lb|z]; [exists FBin|exists FHex|exists FDecimal]; unfold decode_privkey; cbn [as_int py_len rbind].
  - assert (Z32 : zlen b = 32) by (unfold zlen; lia). destruct T; cbn [as_int py_len rbind]; rewrite Z32; cbn [Z.eqb Pos.eqb]; rewrite <- Lb, firstn_all, <- num_be_bytes2z; reflexivity.
  - pose proof (hex_denotes_length _ _ Hx) as Lt. rewrite Lb in Lt. change (2 * 32)%nat with 64%nat in Lt. destruct T as [s|s]; cbn [as_int py_len rbind].
    + assert (Z64 : zlen s = 64) by (unfold zlen; lia). rewrite Z64. cbn [Z.eqb Pos.eqb]. rewrite <- Lt, firstn_all. unfold decode16. rewrite (decode16_spec b s 0 Hx). reflexivity.
    + rewrite map_length in Lt. assert (Z64 : zlen s = 64) by (unfold zlen; lia). rewrite Z64. cbn [Z.eqb Pos.eqb]. rewrite <- Lt, <- (map_length b2z s), firstn_all. unfold decode16. rewrite (decode16_spec b _ 0 Hx). reflexivity.
  - reflexivity.
Qed.
Lemma nonce_nonneg H z d : 0 <= deterministic_generate_k H z d.
Proof. unfold deterministic_generate_k. rewrite <- num_be_bytes2z. apply num_be_bound. Qed.
Lemma s_eq n i k t : 1 < n -> cong n (i * k) 1 -> cong n (i * t mod n * k) t.
Proof. intros N I. rewrite cong_mod by lia. transitivity (i * k * t); [apply cong_eq; ring|]. rewrite I. apply cong_eq. ring. Qed.
Lemma s_neg n s k t : cong n (s * k) t -> cong n ((n - s) * k) (- t).
Proof. intros E. transitivity (- (s * k)); [exists k; ring|]. rewrite E. reflexivity. Qed.
Lemma n_odd : n_r1 mod 2 = 1. Proof. reflexivity. Qed.
(** the signature: the number r is the x coordinate of the k-fold sum of the base point, for the
    nonce k computed from the digest and the key; s is the lower of the two values that satisfy
    s k = z + r d up to sign, modulo n *)
Theorem C100_signature : forall H wif w v m key d, is_secp256r1 (w_curve w) -> signs_for v m -> private_number key d ->
  exists sig, wSign H (real_sigs H wif) v key w = (Ok sig, w) /\ List.length sig = 64%nat /\
  let z := num_be (sha256 H m) in let k := deterministic_generate_k H z d in
  let r := num_be (firstn 32 sig) in let s := num_be (skipn 32 sig) in
  r = fst (r1_times (k mod n_r1) G256) /\ 0 <= 2 * s < n_r1 /\
  ((n_r1 | k) \/ same n_r1 (s * k) (z + r * d) \/ same n_r1 (s * k) (- (z + r * d))).
Proof.
  intros H wif w v m key d C M K. destruct (private_decode wif key d K) as (f & Ef).
  set (z := num_be (sha256 H m)). set (k := deterministic_generate_k H z d). pose proof (nonce_nonneg H z d) as K0. fold k in K0. pose proof n_pos as NP.
  assert (KM : (if (k <? 0) || (k >=? n_r1) then k mod n_r1 else k) = k mod n_r1). { destruct ((k <? 0) || (k >=? n_r1)) eqn:T; [reflexivity|]. symmetry. apply Z.mod_small. lia. }
  destruct (r1_bounds _ (r1_pt (k mod n_r1) G256 G_r1)) as (BX & _). set (r := fst (r1_times (k mod n_r1) G256)) in *.
  set (s0 := inv k n_r1 * (z + r * d) mod n_r1). set (s := if s0 * 2 <? n_r1 then s0 else n_r1 - s0).
  assert (R : exists i, raw_sign (real_sigs H wif) setup_curve (sha256 H m) key = Ok (i, r, s)).
  { cbn [raw_sign real_sigs]. unfold ecdsa_raw_sign. rewrite Ef. cbn [rbind]. rewrite <- num_be_bytes2z. fold z. fold k. rewrite mult_r1, KM, setup_n. unfold r in *. destruct (r1_times (k mod n_r1) G256) as [x y]. cbn [fst] in *. eexists. reflexivity. }
  assert (S0 : 0 <= s0 < n_r1) by (apply Z.mod_pos_bound; lia). pose proof n_odd as ODD. pose proof (Z.div_mod n_r1 2 ltac:(lia)) as DM.
  assert (S : 0 <= 2 * s < n_r1) by (unfold s; destruct (s0 * 2 <? n_r1) eqn:T; lia).
  destruct R as (i & R). assert (BS : 0 <= s < 2 ^ 256). { pose proof n_lt_p. pose proof p_lt. lia. }
  pose proof (be32_z2bytes r BX) as Br. pose proof (be32_z2bytes s BS) as Bs. exists (z2bytes BE 32 r ++ z2bytes BE 32 s).
  split; [rewrite <- (r1_setup _ C) in R; exact (C81_signs H (real_sigs H wif) w v m key i r s _ _ M R Br Bs)|].
  destruct Br as [Lr Vr], Bs as [Ls Vs]. split; [rewrite app_length; lia|]. cbv zeta.
  rewrite firstn_app, skipn_app, Lr, Nat.sub_diag, firstn_O, app_nil_r, firstn_all2, skipn_all2 by lia. cbn [app skipn]. rewrite Vr, Vs. split; [reflexivity|]. split; [exact S|].
  destruct (Zdivide_dec n_r1 k) as [D|D]; [left; exact D|right]. rewrite <- cong_0 in D. destruct (inv_prime k n_r1 prime_n D) as (I & _).
  assert (E0 : cong n_r1 (s0 * k) (z + r * d)) by (apply s_eq; [lia|exact I]).
  unfold s. destruct (s0 * 2 <? n_r1); [left; exact E0|right]. rewrite same_cong. apply s_neg, E0.
Qed.
Print Assumptions C100_signature.

(** the nonce is RFC 6979's first candidate, also when that is 0 or not below n (where the RFC
    takes the next one) *)
Lemma nth_repeat_lt (v : byte) n i : (i < n)%nat -> nth i (repeat v n) x00 = v.
Proof. intros I. rewrite (nth_indep _ x00 v) by (rewrite repeat_length; exact I). apply nth_repeat. Qed.
Lemma byte_xor b v : b2z (z2b (Z.lxor (b2z b) (b2z v))) = Z.lxor (b2z b) (b2z v).
Proof. exact (xor_loop_nth [b] [v] 0 eq_refl ltac:(cbn; lia)). Qed.
Lemma pad_xored key v : xored key (repeat v (List.length key)) (map (fun b => z2b (Z.lxor (b2z b) (b2z v))) key).
Proof.
  split; [apply repeat_length|]. split; [apply map_length|]. intros i I. rewrite (nth_repeat_lt v _ i I).
  rewrite (nth_indep _ x00 (z2b (Z.lxor (b2z x00) (b2z v)))) by (rewrite map_length; exact I). rewrite (map_nth (fun b => z2b (Z.lxor (b2z b) (b2z v)))). apply byte_xor.
Qed.
Lemma hmac_spec H key msg : (List.length key <= 64)%nat -> hmac_is H key msg (hmac_sha256 H key msg).
Proof.
  intros Lk. unfold hmac_sha256. set (k0 := key ++ repeat x00 (64 - List.length key)). assert (L0 : List.length k0 = 64%nat) by (unfold k0; rewrite app_length, repeat_length; lia).
  exists (repeat x00 (64 - List.length key)), (map (fun b => z2b (Z.lxor (b2z b) 54)) k0), (map (fun b => z2b (Z.lxor (b2z b) 92)) k0). split; [apply Forall_forall; intros x I; apply repeat_spec in I; congruence|].
  fold k0. split; [exact L0|]. pose proof (pad_xored k0 x36) as A. pose proof (pad_xored k0 x5c) as B. rewrite L0 in A, B. split; [exact A|]. split; [exact B|reflexivity].
Qed.
Lemma encode256_be32 z b : be32 z b -> encode256 z = b.
Proof.
  intros B. pose proof B as [Lb Vb]. pose proof (num_be_bound b) as [B0 B1]. rewrite Vb in B0, B1. unfold zlen in B1. rewrite ?Lb in B1. change (256 ^ Z.of_nat 32) with (2 ^ 256) in B1.
  unfold encode256. cbv zeta. assert (Z.max 0 z = z) as -> by lia. assert (BL : bit_length z <= 256). { unfold bit_length. destruct (z =? 0) eqn:Z0; [lia|]. rewrite Z.abs_eq by lia. apply Z.log2_lt_pow2 in B1; lia. }
  assert ((bit_length z + 7) / 8 <= 32) by (apply Z.lt_succ_r, Z.div_lt_upper_bound; lia). assert (Z.max 32 ((bit_length z + 7) / 8) = 32) as -> by lia. apply (be32_inj z); [apply be32_z2bytes; lia|exact B].
Qed.
Theorem C100_nonce : forall H d priv digest, hash_ok H -> be32 d priv -> List.length digest = 32%nat ->
  rfc6979_first H priv digest (deterministic_generate_k H (num_be digest) d).
Proof.
  intros H d priv digest (O & _) P D. unfold deterministic_generate_k. rewrite (encode256_be32 d priv P), (encode256_be32 (num_be digest) digest (conj D eq_refl)). rewrite <- num_be_bytes2z.
  assert (M : forall k m, (List.length (hmac_sha256 H k m) <= 64)%nat) by (intros k m; unfold hmac_sha256; rewrite O; lia).
  do 5 eexists. split; [apply hmac_spec; cbn; lia|]. split; [apply hmac_spec, M|]. split; [apply hmac_spec, M|]. split; [apply hmac_spec, M|]. split; [apply hmac_spec, M|]. reflexivity.
Qed.
Print Assumptions C100_nonce.

Lemma times_mod a : 0 <= a -> r1_times (a mod n_r1) G256 = r1_times a G256.
Proof. intros A. pose proof n_pos. pose proof (Z.mod_pos_bound a n_r1 ltac:(lia)). apply r1_order; [lia|exact A|]. exists (- (a / n_r1)). pose proof (Z.div_mod a n_r1 ltac:(lia)). lia. Qed.
Lemma combine u1 u2 d : 0 <= u1 -> 0 <= u2 -> 0 <= d -> r1_add (r1_times u1 G256) (r1_times u2 (r1_times d G256)) = r1_times ((u1 + u2 * d) mod n_r1) G256.
Proof.
  intros A B D. rewrite times_mod by nia. unfold r1_times, r1_add. rewrite <- (times_mul secp256r1 E_r1) by (exact G_r1 || lia). symmetry. apply (times_add secp256r1 E_r1); [exact G_r1|lia|nia].
Qed.
Lemma fst_opposite k : 0 <= k -> fst (r1_times ((- k) mod n_r1) G256) = fst (r1_times (k mod n_r1) G256).
Proof.
  intros K. pose proof n_pos. set (j := k mod n_r1). assert (J : 0 <= j < n_r1) by (apply Z.mod_pos_bound; lia). destruct (Z.eq_dec j 0) as [E|NE].
  - assert (D : (n_r1 | k)) by (apply Z.mod_divide; [lia|exact E]). assert (M : (- k) mod n_r1 = 0). { apply Z.mod_divide; [lia|]. apply Z.divide_opp_r. exact D. } rewrite E, M. reflexivity.
  - assert (M : (- k) mod n_r1 = n_r1 - j). { apply Z.mod_opp_l_nz; [lia|exact NE]. } rewrite M. assert (P := r1_pt j G256 G_r1).
    assert (N : r1_times j G256 <> (0, 0)). { rewrite (r1_inf j) by lia. intros D. apply Z.divide_pos_le in D; lia. }
    replace (r1_times (n_r1 - j) G256) with (opposite secp256r1 (r1_times j G256)); [reflexivity|].
    destruct (opposite_pt secp256r1 E_r1 y_r1 _ P N) as (HO & _). apply (cancel secp256r1 E_r1 _ _ (r1_times j G256)); [exact HO|apply r1_pt, G_r1|exact P|].
    rewrite (comm secp256r1 E_r1 _ _ HO P), (opposite_sum secp256r1 E_r1 y_r1 _ P N). unfold r1_times, r1_add. rewrite <- (times_add secp256r1 E_r1) by (exact G_r1 || lia).
    replace (n_r1 - j + j) with n_r1 by lia. symmetry. apply (r1_inf n_r1); [lia|apply Z.divide_refl].
Qed.
Lemma signature_valid z k r s d Q : 0 <= z -> 0 <= k -> 0 <= d -> Q = r1_times d G256 -> r = fst (r1_times (k mod n_r1) G256) -> 0 <= 2 * s < n_r1 ->
  ((n_r1 | k) \/ same n_r1 (s * k) (z + r * d) \/ same n_r1 (s * k) (- (z + r * d))) ->
  (ecdsa_valid Q z r s <-> 0 < r < n_r1 /\ s <> 0).
Proof.
  intros Z K D -> Er S C. unfold ecdsa_valid. split; [lia|]. intros (R & NZ). split; [lia|]. split; [lia|]. pose proof n_pos as NP.
  assert (NS : ~ cong n_r1 s 0). { intros X. apply cong_0, Z.divide_pos_le in X; lia. }
  destruct (inv_prime s n_r1 prime_n NS) as (W & Wb). set (w := inv s n_r1) in *. exists w. split; [exact W|]. cbv zeta.
  rewrite combine by (try apply Z.mod_pos_bound; lia). pose proof (Z.mod_pos_bound k n_r1 ltac:(lia)) as Kb.
  assert (NK : ~ (n_r1 | k)). { intros X. assert (M : k mod n_r1 = 0) by (apply Z.mod_divide; [lia|exact X]). rewrite M in Er. cbn in Er. lia. }
  set (e := (_ + _) mod n_r1). assert (Ee : e = k mod n_r1 \/ e = (- k) mod n_r1).
  { assert (X : cong n_r1 (z * w mod n_r1 + r * w mod n_r1 * d) (w * (z + r * d))). { rewrite !(cong_mod n_r1) by lia. apply cong_eq. ring. }
    destruct C as [C|[C|C]]; [tauto|left|right]; apply (cong_iff n_r1); try lia; rewrite X; rewrite same_cong in C.
    - rewrite <- C. transitivity (w * s * k); [apply cong_eq; ring|]. rewrite W. apply cong_eq. ring.
    - transitivity (- (w * (- (z + r * d)))); [apply cong_eq; ring|]. rewrite <- C. transitivity (- (w * s * k)); [apply cong_eq; ring|]. rewrite W. apply cong_eq. ring. }
  assert (F : fst (r1_times e G256) = r). { rewrite Er. destruct Ee as [-> | ->]; [reflexivity|apply fst_opposite, K]. }
  split; [intros X; rewrite X in F; cbn in F; lia|]. rewrite F. apply cong_refl.
Qed.
(** Signing with the key of a KeyPair, in any of its forms, and verifying under its PublicKey
    (ECPoint, 64 bytes or 33 bytes) returns True, unless r or s is 0, r is not below n, or a
    coordinate of the public key is not below n (the last four: about one in 2^128). *)
Theorem C100_sign_verify : forall H L wif w w1 k kp key d vm vm' u m, hash_ok H -> List.length k = 32%nat ->
  wKeyPair H (real_keys L) (VBytes k) w = (Ok kp, w1) -> num_be k <> 0 ->
  private_number key d -> d = num_be k -> signs_for vm m -> signed_bytes vm' u m ->
  exists sig b, wSign H (real_sigs H wif) vm key w1 = (Ok sig, w1) /\ List.length sig = 64%nat /\
  wVerifySignature (real_sigs H wif) vm' sig (KPoint (kp_PublicKey kp)) u w1 = (Ok b, w1) /\
  (forall enc, compressed_key (fst (kp_PublicKey kp)) (snd (kp_PublicKey kp)) enc -> wVerifySignature (real_sigs H wif) vm' sig (KBytes enc) u w1 = (Ok b, w1)) /\
  let r := num_be (firstn 32 sig) in let s := num_be (skipn 32 sig) in
  (b = true <-> 0 < r < n_r1 /\ s <> 0 /\ fst (kp_PublicKey kp) < n_r1 /\ snd (kp_PublicKey kp) < n_r1).
Proof.
  intros H L wif w w1 k kp key d vm vm' u m O Lk Kp NZ Kd Ed M M'.
  assert (Kp' : wKeyPair H (real_keys L) (VBytes k) w = (new_KeyPair H (real_keys L) (VBytes k), mkWorld setup_curve (w_instance w))) by reflexivity. rewrite Kp in Kp'.
  assert (Ek : new_KeyPair H (real_keys L) (VBytes k) = Ok kp) by congruence. assert (Ew : w_curve w1 = setup_curve) by (replace w1 with (mkWorld setup_curve (w_instance w)) by congruence; reflexivity). clear Kp Kp'.
  destruct (C99_point H L (VBytes k) k kp O (bytes_b k) Lk Ek) as (P & Inf & _ & B). destruct (proj1 (C99_public_key H L (VBytes k) k O (bytes_b k) Lk) B) as (h & Eh).
  assert (Eq : kp_PublicKey kp = r1_times (num_be k) G256) by (assert (kp = mkKeyPair k (r1_times (num_be k) G256) h) as -> by congruence; reflexivity).
  assert (Cw : is_secp256r1 (w_curve w1)) by (rewrite Ew; exact setup_is). pose proof (num_be_bound k) as [B0 _].
  destruct (C100_signature H wif w1 vm m key d Cw M Kd) as (sg & Es & Ls & R & S & C). cbv zeta in R, S, C.
  destruct (r1_bounds _ P) as (BX & BY). assert (N : kp_PublicKey kp <> (0, 0)) by tauto. destruct (kp_PublicKey kp) as [x y] eqn:Exy. cbn [fst snd] in *.
  destruct (C101_accepts_point H wif w1 vm' u m sg x y M' BX BY) as (b & Eb & Bb). exists sg, b. split; [exact Es|]. split; [exact Ls|]. split; [exact Eb|]. split.
  - intros enc K. destruct (C101_accepts_compressed H wif w1 vm' u m sg x y enc Cw M' P N K) as (b' & Eb' & Bb'). rewrite Eb'. do 2 f_equal. destruct b, b'; try reflexivity; [apply Bb', Bb; reflexivity|symmetry; apply Bb, Bb'; reflexivity].
  - cbv zeta. rewrite Bb. rewrite (signature_valid (num_be (sha256 H m)) (deterministic_generate_k H (num_be (sha256 H m)) d) _ _ d (x, y)); [|apply num_be_bound|apply nonce_nonneg|lia|rewrite Ed; exact Eq|exact R|exact S|exact C].
    assert (Ord : r1_times n_r1 (x, y) = (0, 0)). { rewrite Eq. pose proof n_pos. unfold r1_times, r1_add. rewrite <- (times_mul secp256r1 E_r1) by (exact G_r1 || lia). apply (r1_inf (n_r1 * num_be k)); [nia|]. apply Z.divide_factor_l. }
    unfold acceptable_key. tauto.
Qed.
Print Assumptions C100_sign_verify.
