(** * P_Hash: property C82

    [H] is an arbitrary pair of hash functions with 32- and 20-byte digests. *)
From Coq Require Import String Lia ZifyBool ZifyNat.
From Verif Require Import M_Py M_Hash M_Base58 M_UInt M_Helper S_IO S_UInt S_Address L_Bytes L_IO L_Hex L_Utf8 L_UInt L_Address.

(** ** C82 Hashing helpers and script hashes *)
(** double SHA-256 as raw bytes or as text; RIPEMD-160 of SHA-256: text from the static method,
    the raw 20 bytes from the method of the same name of Crypto.Default() *)
Theorem C82_digests : forall H m, hash_ok H ->
  bin_dbl_sha256 H m = sha256 H (sha256 H m) /\ Crypto_Hash256 H m = sha256 H (sha256 H m) /\
  CryptoInstance_Hash256 H m = sha256 H (sha256 H m) /\
  hex_denotes (double_sha256 H m) (sha256 H (sha256 H m)) /\ Forall lower_hex_digit (double_sha256 H m) /\
  bin_hash160Bytes H m = ripemd160 H (sha256 H m) /\ Crypto_Hash160Bytes H m = ripemd160 H (sha256 H m) /\
  CryptoInstance_Hash160 H m = ripemd160 H (sha256 H m) /\ redeem_to_scripthash H m = ripemd160 H (sha256 H m) /\
  bin_hash160 H m = Crypto_Hash160 H m /\ hex_denotes (Crypto_Hash160 H m) (ripemd160 H (sha256 H m)) /\
  Forall lower_hex_digit (Crypto_Hash160 H m) /\
  length (CryptoInstance_Hash160 H m) = 20%nat /\ length (Crypto_Hash160 H m) = 40%nat /\
  length (Crypto_Hash256 H m) = 32%nat /\ length (double_sha256 H m) = 64%nat.
Proof.
  intros H m [O1 O2].
  repeat (split; [reflexivity || apply hex_denotes_hex || apply hex_lower_digits || apply O2|]).
  unfold Crypto_Hash160, bin_hash160, double_sha256, Crypto_Hash256, bin_dbl_sha256. rewrite !hex_length, O2, !O1. repeat split.
Qed.
Print Assumptions C82_digests.

Definition script_hash_of (H : hashes) (d : bytes) (u : uint) : Prop :=
  u_cls u = CUInt160 /\ u_data u = ripemd160 H (sha256 H d) /\ u_hash u = num LE (firstn 4 (u_data u)).
Lemma ToScriptHash_any H v n d unhex : hash_ok H -> py_len v = Ok n ->
  (if (n >? 1) && unhex then unhexlify v else match v with VBytes b | VBytearray b => Ok b | _ => Raise TypeError end) = Ok d ->
  exists u, ToScriptHash H v unhex = Ok u /\ script_hash_of H d u.
Proof.
  intros [_ O] L E. unfold ToScriptHash. rewrite L. cbn [rbind]. rewrite E. cbn [rbind].
  unfold bin_hash160. rewrite utf8_ascii by (eapply Forall_impl; [|apply hex_ascii]; cbn beta; lia). cbn [rbind].
  fold (hexlify (ripemd160 H (sha256 H d))). rewrite unhexlify_hexlify. cbn [rbind].
  assert (R : exists u, new_UInt160 (VBytes (ripemd160 H (sha256 H d))) = Ok u /\ u_cls u = CUInt160 /\ u_data u = ripemd160 H (sha256 H d) /\
    u_hash u = num LE (firstn 4 (u_data u))); [|exact R].
  eexists. split; [apply (init_spec CUInt160 20); exists (ripemd160 H (sha256 H d)); split; [right; split; [left; reflexivity|apply O]|reflexivity]|].
  repeat split; reflexivity.
Qed.
(** hexadecimal data of at least two characters, as bytes, bytearray or text, is decoded first *)
Theorem C82_hex_data : forall H v l d, hash_ok H -> hex_denotes l d -> d <> [] ->
  (exists b, map b2z b = l /\ (v = VBytes b \/ v = VBytearray b)) \/ v = VStr l ->
  exists u, ToScriptHash H v true = Ok u /\ script_hash_of H d u.
Proof.
  intros H v l d O D N Hv. pose proof (hex_denotes_length _ _ D) as L. apply unhex_denotes in D.
  assert (G : (zlen l >? 1) && true = true) by (destruct d; [congruence|]; unfold zlen; cbn [length] in L; lia).
  destruct Hv as [(b & Hb & Hv)|Hv].
  - assert (E : zlen b = zlen l) by (rewrite <- Hb; unfold zlen; rewrite map_length; reflexivity).
    destruct Hv as [-> | ->]; (eapply ToScriptHash_any; [exact O|reflexivity|]); rewrite E, G; unfold unhexlify; rewrite Hb, D; reflexivity.
  - subst v. eapply ToScriptHash_any; [exact O|reflexivity|]. rewrite G. unfold unhexlify.
    assert (T : hex_text l) by (apply hex_text_iff; eauto). rewrite (hex_text_ascii _ T), D. reflexivity.
Qed.
Print Assumptions C82_hex_data.
(** fewer than two bytes, and anything with unhex=False, is hashed as it is *)
Theorem C82_raw_data : forall H b unhex, hash_ok H -> (length b <= 1)%nat \/ unhex = false ->
  (exists u, ToScriptHash H (VBytes b) unhex = Ok u /\ script_hash_of H b u) /\
  (exists u, ToScriptHash H (VBytearray b) unhex = Ok u /\ script_hash_of H b u).
Proof.
  intros H b unhex O C. assert (G : (zlen b >? 1) && unhex = false).
  { destruct C as [C| ->]; [|apply andb_false_r]. replace (zlen b >? 1) with false by (unfold zlen; lia). reflexivity. }
  split; (eapply ToScriptHash_any; [exact O|reflexivity|]); rewrite G; reflexivity.
Qed.
Print Assumptions C82_raw_data.
(** everything else is refused *)
Theorem C82_refused : forall H b, (2 <= length b)%nat -> ~ hex_text (map b2z b) ->
  ToScriptHash H (VBytes b) true = Raise BinasciiError /\ ToScriptHash H (VBytearray b) true = Raise BinasciiError.
Proof.
  intros H b L N. apply not_hex_text in N. unfold ToScriptHash. cbn [py_len rbind unhexlify].
  replace (zlen b >? 1) with true by (unfold zlen; lia). cbn [andb]. rewrite N. split; reflexivity.
Qed.
Print Assumptions C82_refused.
Theorem C82_text_refused : forall H s unhex, (length s <= 1)%nat \/ unhex = false -> ToScriptHash H (VStr s) unhex = Raise TypeError.
Proof.
  intros H s unhex C. assert (G : (zlen s >? 1) && unhex = false).
  { destruct C as [C| ->]; [|apply andb_false_r]. replace (zlen s >? 1) with false by (unfold zlen; lia). reflexivity. }
  unfold ToScriptHash. cbn [py_len rbind]. rewrite G. reflexivity.
Qed.
Print Assumptions C82_text_refused.
(** "ab" is hashed as the byte 0xab, but "a" as the byte 0x61 *)
Example C82_example : hash_ok real_hashes /\ hex_denotes (str "ab") [xab] /\
  (exists u, ToScriptHash real_hashes (VBytes (bstr "ab")) true = Ok u /\ ToString u = str "fc47a9a1cb61ca967a1306e0428cfd3556d51027") /\
  Crypto_Hash160 real_hashes (bstr "a") = str "994355199e516ff76c4fa4aab39337b9d84cf12b".
Proof. split; [exact real_hashes_ok|]. split; [reflexivity|]. split; [eexists; split|]; vm_compute; reflexivity. Qed.
