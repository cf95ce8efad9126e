(** * P_Hash2: property C108

    The hash functions used by the examples and by the theorems about [real_hashes] are the
    published ones; what the helpers of the library compute with them. *)
From Coq Require Import String Lia ZifyBool ZifyNat.
From Verif Require Import M_Py M_Hash M_Base58 M_UInt M_Helper S_IO S_UInt S_Address S_Hash L_Bytes L_IO L_Hex L_Address L_Hash L_Hash2 P_Hash P_Address.

(** ** C108 SHA-256 and RIPEMD-160 are the published functions *)
Theorem C108_sha256 : forall m d, sha256 real_hashes m = d <-> is_sha256 m d.
Proof. intros m d. split; [intros <-; apply sha256_is|]. intros I. exact (sha256_unique m _ _ (sha256_is m) I). Qed.
Print Assumptions C108_sha256.
Theorem C108_ripemd160 : forall m d, ripemd160 real_hashes m = d <-> is_ripemd160 m d.
Proof. intros m d. split; [intros <-; apply ripemd160_is|]. intros I. exact (ripemd160_unique m _ _ (ripemd160_is m) I). Qed.
Print Assumptions C108_ripemd160.
(** every message has exactly one digest *)
Theorem C108_functions : forall m, (exists! d, is_sha256 m d) /\ (exists! d, is_ripemd160 m d).
Proof.
  intros m. split; [exists (real_sha256 m)|exists (real_ripemd160 m)]; (split; [apply sha256_is || apply ripemd160_is|]); intros d I.
  - exact (sha256_unique m _ _ (sha256_is m) I).
  - exact (ripemd160_unique m _ _ (ripemd160_is m) I).
Qed.
Print Assumptions C108_functions.
Lemma is_sha m d : is_sha256 m d -> real_sha256 m = d.
Proof. intros I. apply (proj2 (C108_sha256 m d) I). Qed.
Lemma is_rmd m d : is_ripemd160 m d -> real_ripemd160 m = d.
Proof. intros I. apply (proj2 (C108_ripemd160 m d) I). Qed.

(** Crypto.Hash256, Crypto.Hash160 and the methods of Crypto.Default() *)
Theorem C108_hash256 : forall m s d, is_sha256 m s -> is_sha256 s d ->
  Crypto_Hash256 real_hashes m = d /\ CryptoInstance_Hash256 real_hashes m = d /\ hex_denotes (double_sha256 real_hashes m) d.
Proof.
  intros m s d I J. destruct (C82_digests real_hashes m real_hashes_ok) as (_ & A & B & C & _). cbn [sha256 real_hashes] in A, B, C.
  rewrite (is_sha m s I), (is_sha s d J) in A, B, C. auto.
Qed.
Print Assumptions C108_hash256.
Theorem C108_hash160 : forall m s d, is_sha256 m s -> is_ripemd160 s d ->
  Crypto_Hash160Bytes real_hashes m = d /\ CryptoInstance_Hash160 real_hashes m = d /\ hex_denotes (Crypto_Hash160 real_hashes m) d.
Proof.
  intros m s d I J. destruct (C82_digests real_hashes m real_hashes_ok) as (_ & _ & _ & _ & _ & _ & A & B & _ & _ & C & _). cbn [sha256 ripemd160 real_hashes] in A, B, C.
  rewrite (is_sha m s I), (is_rmd s d J) in A, B, C. auto.
Qed.
Print Assumptions C108_hash160.
(** the address of a script hash: Base58 of the version, the script hash and four bytes of double SHA-256 *)
Theorem C108_address : forall u t, ToAddress real_hashes u = t <->
  exists s d, is_sha256 (z2b 23 :: u_data u) s /\ is_sha256 s d /\ B58 (z2b 23 :: u_data u ++ firstn 4 d) t.
Proof.
  intros u t. set (p := z2b 23 :: u_data u). assert (A : B58 (p ++ firstn 4 (real_sha256 (real_sha256 p))) (ToAddress real_hashes u)) by exact (address_B58 real_hashes (u_data u)).
  split.
  - intros <-. exists (real_sha256 p), (real_sha256 (real_sha256 p)). split; [apply sha256_is|]. split; [apply sha256_is|exact A].
  - intros (s & d & I & J & B). rewrite (is_sha p s I), (is_sha s d J) in A. apply (proj1 (C47_relation_is_one_to_one _ _ _ _ A B)). reflexivity.
Qed.
Print Assumptions C108_address.
(** from the text of a script to its address *)
Theorem C108_script_to_address : forall l script s1 h s2 d t, hex_denotes l script -> script <> [] -> is_sha256 script s1 -> is_ripemd160 s1 h ->
  is_sha256 (z2b 23 :: h) s2 -> is_sha256 s2 d -> B58 (z2b 23 :: h ++ firstn 4 d) t ->
  exists u, ToScriptHash real_hashes (VStr l) true = Ok u /\ u_data u = h /\ ToAddress real_hashes u = t.
Proof.
  intros l script s1 h s2 d t D N I R J K B. destruct (C82_hex_data real_hashes (VStr l) l script real_hashes_ok D N (or_intror eq_refl)) as (u & U & _ & E & _).
  cbn [sha256 ripemd160 real_hashes] in E. rewrite (is_sha _ _ I), (is_rmd _ _ R) in E. exists u. split; [exact U|]. split; [exact E|]. apply C108_address. rewrite E. eauto.
Qed.
Print Assumptions C108_script_to_address.
Example C108_example :
  is_sha256 (bstr "abc") (real_sha256 (bstr "abc")) /\ hex (real_sha256 (bstr "abc")) = str "ba7816bf8f01cfea414140de5dae2223b00361a396177a9cb410ff61f20015ad" /\
  is_ripemd160 (bstr "abc") (real_ripemd160 (bstr "abc")) /\ hex (real_ripemd160 (bstr "abc")) = str "8eb208f7e05d987a9b044a8e98c6b087f15a0bfc".
Proof. split; [apply sha256_is|]. split; [vm_compute; reflexivity|]. split; [apply ripemd160_is|vm_compute; reflexivity]. Qed.
