(** * P_Version: property C96

    [v], [w]: the value of Helper.ADDRESS_VERSION when the call is made. *)
From Coq Require Import String Lia ZifyBool ZifyNat.
From Verif Require Import M_Py M_Hash M_Base58 M_UInt M_Helper M_ECCurve M_KeyPair M_Version S_IO S_IO2 S_UInt S_Address S_EC S_KeyPair.
From Verif Require Import L_Bytes L_Hex L_UInt L_Base58 L_Address L_IO P_Helper P_Address P_KeyPair.

Lemma version_default : forall H L rs,
  (forall sh, scripthash_to_address_v H 23 sh = Ok (scripthash_to_address H sh)) /\
  (forall u, ToAddress_v H 23 u = Ok (ToAddress H u)) /\ (forall kp, GetAddress_v H 23 kp = GetAddress H kp) /\
  (forall s, cli_scripthash_to_address_v H 23 s = cli_scripthash_to_address H s) /\
  (forall kp p, ExportNEP2_v H L 23 kp p = ExportNEP2 H L kp p) /\
  (forall x p, PrivateKeyFromNEP2_v H L rs 23 x p = PrivateKeyFromNEP2 H L rs x p).
Proof. repeat split. Qed.
(** the value shipped with the library gives the addresses of the other properties *)
Theorem C96_default : forall H L rs,
  (forall u, ToAddress_v H 23 u = Ok (ToAddress H u)) /\ (forall kp, GetAddress_v H 23 kp = GetAddress H kp) /\
  (forall s, cli_scripthash_to_address_v H 23 s = cli_scripthash_to_address H s) /\
  (forall kp p, ExportNEP2_v H L 23 kp p = ExportNEP2 H L kp p) /\
  (forall x p, PrivateKeyFromNEP2_v H L rs 23 x p = PrivateKeyFromNEP2 H L rs x p).
Proof. intros H L rs. apply (version_default H L rs). Qed.
Print Assumptions C96_default.

Lemma z2b_b2z v : 0 <= v < 256 -> b2z (z2b v) = v.
Proof. intros R. rewrite b2z_z2b. apply Z.mod_small, R. Qed.
(** an address is the Base58Check text of the version byte and the hash; a version that is no
    byte is a ValueError *)
Theorem C96_address : forall H v u,
  (0 <= v < 256 -> exists a ver, ToAddress_v H v u = Ok a /\ b2z ver = v /\ B58Check H (ver :: u_data u) a) /\
  (~ 0 <= v < 256 -> ToAddress_v H v u = Raise ValueError).
Proof.
  intros H v u. unfold ToAddress_v, scripthash_to_address_v, bytearray1. split; intros R.
  - replace ((0 <=? v) && (v <? 256)) with true by lia. cbn [rbind]. eexists _, (z2b v). split; [reflexivity|]. split; [apply z2b_b2z, R|apply encode_B58].
  - replace ((0 <=? v) && (v <? 256)) with false by lia. reflexivity.
Qed.
Print Assumptions C96_address.
(** the same for [Helper.scripthash_to_address], given any script hash bytes, and for the command line *)
Theorem C96_scripthash_to_address : forall H v sh,
  (0 <= v < 256 -> exists a ver, scripthash_to_address_v H v sh = Ok a /\ b2z ver = v /\ B58Check H (ver :: sh) a) /\
  (~ 0 <= v < 256 -> scripthash_to_address_v H v sh = Raise ValueError).
Proof. intros H v sh. exact (C96_address H v (mkUInt CUInt160 sh 0)). Qed.
Print Assumptions C96_scripthash_to_address.
Lemma address_v_inv H v u a : ToAddress_v H v u = Ok a -> 0 <= v < 256 /\ B58Check H (z2b v :: u_data u) a.
Proof.
  unfold ToAddress_v, scripthash_to_address_v, bytearray1. destruct ((0 <=? v) && (v <? 256)) eqn:R; [|discriminate]. cbn [rbind]. intros E. split; [lia|].
  assert (a = ascii_decode (b58encode ((z2b v :: u_data u) ++ checksum H (z2b v :: u_data u)))) as -> by (cbn [app] in E; unfold checksum, bin_dbl_sha256 in *; cbn [app]; congruence). apply encode_B58.
Qed.
(** addresses of different versions never coincide *)
Theorem C96_distinct : forall H v w u u' a, hash_ok H -> ToAddress_v H v u = Ok a -> ToAddress_v H w u' = Ok a ->
  v = w /\ u_data u = u_data u'.
Proof.
  intros H v w u u' a O E E'. apply address_v_inv in E, E'. destruct E as [R B], E' as [R' B'].
  pose proof (proj2 (C47_relation_is_one_to_one _ _ _ _ B B') eq_refl) as Ep.
  assert (z2b v :: u_data u = z2b w :: u_data u') as Eq.
  { destruct (split_checksum H ((z2b v :: u_data u) ++ checksum H (z2b v :: u_data u)) O) as [_ S]. rewrite <- (S _ eq_refl). apply S, Ep. }
  assert (z2b v = z2b w) as Ev by congruence. apply (f_equal b2z) in Ev. rewrite !z2b_b2z in Ev by assumption. split; [exact Ev|congruence].
Qed.
Print Assumptions C96_distinct.
(** the command line gives the hash back whatever the version was *)
Theorem C96_roundtrip : forall H rs v u a, hash_ok H -> ToAddress_v H v u = Ok a -> cli_address_to_scripthash H rs a = Ok (u_data u).
Proof.
  intros H rs v u a O E. apply address_v_inv in E. destruct E as [R B].
  assert (P : Forall (fun c => 0 <= c) a) by (eapply B58_nonneg; exact B).
  apply C49_accepts; [exact O|exact P|]. exists a, (z2b v :: u_data u). split; [|split; [exact B|reflexivity]]. eapply B58_self_trim; [apply chars_not_white|exact B].
Qed.
Print Assumptions C96_roundtrip.
(** isValidPublicAddress does not follow the setting: it always accepts the addresses made with
    23, and refuses all those made with anything but 22, 23 and 24 *)
Theorem C96_validity : forall H rs v u a, hash_ok H -> length (u_data u) = 20%nat -> ToAddress_v H v u = Ok a ->
  (v = 23 -> isValidPublicAddress H rs a = Ok true) /\
  (v < 22 \/ 24 < v -> isValidPublicAddress H rs a = Ok false).
Proof.
  intros H rs v u a O Lu E. split.
  - intros ->. assert (a = ToAddress H u) as -> by (change (ToAddress_v H 23 u) with (Ok (ToAddress H u)) in E; congruence). apply C48_accepted; assumption.
  - intros N. destruct (C50_total H rs a) as [[|] V]; [|exact V]. exfalso. apply address_v_inv in E. destruct E as [R B].
    assert (C : Forall (fun c => 0 <= c < 1114112) a) by (eapply Forall_impl; [|eapply B58_chars; exact B]; intros c Hc; apply b58_chars_facts in Hc; lia).
    apply C50_iff in V; [|exact O|exact C]. destruct V as (L34 & A & _).
    destruct (C50_version_bytes H a _ O L34 A B) as (x & rest & Ex & _ & V). assert (x = z2b v) as -> by congruence. rewrite z2b_b2z in V by exact R. lia.
Qed.
Print Assumptions C96_validity.

(** ** keys *)
Lemma GetAddress_v_some H v kp : GetAddress_v H v kp = (do a <- GetAddress H kp; GetAddress_v H v kp).
Proof.
  unfold GetAddress_v, GetAddress. destruct (encode_point _ _ _ _) as [enc|]; [|reflexivity]. cbn [rbind].
  destruct (ToScriptHash _ _ _); reflexivity.
Qed.
(** the address of a key pair *)
Theorem C96_key_address : forall H v kp x y, hash_ok H -> kp_PublicKey kp = (x, y) -> 0 <= x < 2 ^ 256 -> ~ at_infinity x y -> 0 <= v < 256 ->
  exists a h ver, GetAddress_v H v kp = Ok a /\ key_scripthash H x y h /\ b2z ver = v /\ B58Check H (ver :: h) a.
Proof.
  intros H v kp x y O E X I R. destruct (encode_finite x y X I) as (enc & C & En). pose proof (compressed_length x y enc C) as Le.
  set (script := x21 :: enc ++ [xac]).
  assert (T : ToScriptHash H (VBytes (bstr "21" ++ hexlify enc ++ bstr "ac")) true = Ok (hash160_uint H script)).
  { rewrite script_hex. apply ToScriptHash_bytes; [exact O|]. rewrite hexlify_zlen. replace (2 * zlen _ >? 1) with true; [apply unhexlify_hexlify|].
    unfold zlen, script. cbn [length]. lia. }
  destruct (proj1 (C96_address H v (hash160_uint H script)) R) as (a & ver & Ea & Ev & B).
  exists a, (ripemd160 H (sha256 H script)), ver. unfold GetAddress_v. rewrite E, En. cbn [rbind]. rewrite T. cbn [rbind]. split; [exact Ea|].
  split; [exists enc; auto|]. split; [exact Ev|exact B].
Qed.
Print Assumptions C96_key_address.
Lemma GetAddress_v_chars H v kp a : GetAddress_v H v kp = Ok a -> Forall (fun c => In c b58_chars) a.
Proof.
  unfold GetAddress_v. destruct (encode_point _ _ _ _) as [enc|]; [|discriminate]. cbn [rbind]. destruct (ToScriptHash _ _ _) as [u|]; [|discriminate]. cbn [rbind].
  intros E. apply address_v_inv in E. destruct E as [_ B]. eapply B58_chars. exact B.
Qed.

Lemma export_v H L v kp a pass pwd : hash_ok H -> keylib_ok L -> length (kp_PrivateKey kp) = 32%nat -> GetAddress_v H v kp = Ok a ->
  2 <= zlen pass -> utf8_encode (nfc L pass) = Ok pwd ->
  exists t, ExportNEP2_v H L v kp pass = Ok t /\ NEP2 H L (kp_PrivateKey kp) a pwd t.
Proof.
  intros O K Lk Ga Lp U. pose proof K as (K1 & K2 & K3 & K4 & K5). pose proof (GetAddress_v_chars H v kp a Ga) as Ca.
  set (k := kp_PrivateKey kp) in *. set (ah := checksum H (map z2b a)). set (derived := scrypt_hash L pwd ah).
  assert (Ld1 : length (firstn 32 derived) = 32%nat) by (rewrite firstn_length; unfold derived; rewrite K2; reflexivity).
  assert (Ld2 : length (skipn 32 derived) = 32%nat) by (rewrite skipn_length; unfold derived; rewrite K2; reflexivity).
  assert (X : xored k (firstn 32 derived) (xor_loop k (firstn 32 derived))).
  { apply xor_bytes_xored. cbn [xor_bytes]. replace (zlen k =? _) with true by (unfold zlen; lia). reflexivity. }
  destruct (K3 (skipn 32 derived) (xor_loop k (firstn 32 derived)) Ld2) as (enc & Ae & _); [destruct X as (_ & X & _); unfold zlen; rewrite X, Lk; reflexivity|].
  exists (ascii_decode (b58encode_check H (NEP_HEADER ++ NEP_FLAG ++ ah ++ enc))). split.
  - unfold ExportNEP2_v. replace (zlen pass <? 2) with false by lia. rewrite Ga. cbn [rbind]. rewrite (address_hash_ok H a Ca). cbn [rbind]. rewrite U. cbn [rbind].
    fold k ah derived. rewrite (proj2 (xor_bytes_xored _ _ _) X). cbn [rbind]. rewrite Ae. reflexivity.
  - exists (xor_loop k (firstn 32 derived)), enc. split; [exact X|]. split; [exact Ae|]. apply encode_B58.
Qed.
(** A NEP-2 text carries the checksum of the address under the version in force when it was
    written.  It opens under a version [w] exactly when the address under [w] has that same
    checksum -- for [w] = [v] always --, and otherwise the import raises ValueError, as for a
    wrong passphrase. *)
Theorem C96_nep2 : forall H L rs k kp v w a b pass pwd, hash_ok H -> keylib_ok L -> length k = 32%nat ->
  new_KeyPair H L (VBytes k) = Ok kp -> GetAddress_v H v kp = Ok a -> GetAddress_v H w kp = Ok b -> 2 <= zlen pass ->
  utf8_encode (nfc L pass) = Ok pwd ->
  exists t, ExportNEP2_v H L v kp pass = Ok t /\
    (checksum H (map z2b a) = checksum H (map z2b b) -> PrivateKeyFromNEP2_v H L rs w (VStr t) pass = Ok k) /\
    (checksum H (map z2b a) <> checksum H (map z2b b) -> PrivateKeyFromNEP2_v H L rs w (VStr t) pass = Raise ValueError).
Proof.
  intros H L rs k kp v w a b pass pwd O K Lk N Ga Gb Lp U. pose proof (private_of_32 H L k kp Lk N) as Pk.
  destruct (export_v H L v kp a pass pwd O K) as (t & Et & Nt); [rewrite Pk; exact Lk|exact Ga|exact Lp|exact U|]. exists t. split; [exact Et|].
  rewrite Pk in Nt. destruct (nep2_shape H L k a pwd t O K Lk Nt) as [Lt _]. destruct Nt as (xk & enc & X & A & B). set (ah := checksum H (map z2b a)) in *. set (derived := scrypt_hash L pwd ah) in *.
  pose proof K as (K1 & K2 & K3 & K4 & K5).
  destruct (K3 (skipn 32 derived) xk) as (e & Ee & Le & De); [rewrite skipn_length; unfold derived; rewrite K2; reflexivity|destruct X as (_ & X2 & _); unfold zlen; rewrite X2, Lk; reflexivity|].
  rewrite A in Ee. assert (e = enc) as -> by congruence. destruct (parts x01 x42 xe0 ah enc) as [P1 P2]; [apply checksum_length, O|destruct X as (_ & X2 & _); lia|].
  assert (Main : PrivateKeyFromNEP2_v H L rs w (VStr t) pass = if list_eq_dec Byte.byte_eq_dec (checksum H (map z2b b)) ah then Ok k else Raise ValueError).
  { unfold PrivateKeyFromNEP2_v. rewrite (truthy_text (VStr t) t (text_str t)) by lia. cbn [negb py_len rbind]. rewrite Lt. cbn [Z.eqb Pos.eqb negb].
    set (pl := [x01; x42; xe0] ++ ah ++ enc) in *.
    assert (D : b58decode rs (VStr t) = Ok (pl ++ checksum H pl)).
    { apply decode_str_iff; [eapply B58_nonneg; exact B|]. exists t. split; [|exact B]. eapply B58_self_trim; [apply chars_not_white|exact B]. }
    unfold b58decode_check. rewrite D. cbn [rbind]. destruct (split_checksum H (pl ++ checksum H pl) O) as [S1 S2]. rewrite (S2 pl eq_refl) in S1 |- *.
    destruct (list_eq_dec _ _ _) as [_|Nn]; [|exfalso; apply Nn, S1; eauto]. cbn [rbind]. change (length NEP_FLAG + length NEP_HEADER)%nat with 3%nat. change (3 + 4)%nat with 7%nat.
    rewrite P1, P2. rewrite U. cbn [rbind]. fold derived. rewrite De. cbn [rbind]. rewrite (proj2 (xor_bytes_xored _ _ _) (xored_self _ _ _ X)). cbn [rbind]. rewrite N. cbn [rbind]. rewrite Gb. cbn [rbind].
    rewrite (address_hash_ok H b (GetAddress_v_chars H w kp b Gb)). cbn [rbind]. reflexivity. }
  rewrite Main. destruct (list_eq_dec _ _ _) as [E|E]; split; congruence.
Qed.
Print Assumptions C96_nep2.
(** a version that is no byte: ConversionError from the command line, ValueError from the key functions *)
Theorem C96_bad_version : forall H L v kp pass s, ~ 0 <= v < 256 ->
  cli_scripthash_to_address_v H v s = Raise ConversionError /\
  (forall a, GetAddress H kp = Ok a -> GetAddress_v H v kp = Raise ValueError /\ ExportNEP2_v H L v kp pass = Raise ValueError).
Proof.
  intros H L v kp pass s R. split.
  - unfold cli_scripthash_to_address_v. match goal with |- context [match ?x with _ => _ end] => destruct x as [a|] eqn:E end; [|reflexivity]. exfalso.
    destruct (if list_eq_dec Z.eq_dec (firstn 2 s) (str "0x") then _ else _) as [s'|]; [|discriminate]. cbn [rbind] in E. destruct (UInt160_ParseString s') as [u|]; [|discriminate]. cbn [rbind] in E.
    rewrite (proj2 (C96_address H v u) R) in E. discriminate.
  - intros a Ga. assert (G : GetAddress_v H v kp = Raise ValueError).
    { unfold GetAddress, GetAddress_v in *. destruct (encode_point _ _ _ _) as [enc|]; [|discriminate]. cbn [rbind] in *. destruct (ToScriptHash _ _ _) as [u|]; [|discriminate]. cbn [rbind] in *.
      exact (proj2 (C96_address H v u) R). }
    split; [exact G|]. unfold ExportNEP2_v. destruct (zlen pass <? 2); [reflexivity|]. rewrite G. reflexivity.
Qed.
Print Assumptions C96_bad_version.

(** the address of tests/test_cryptography.py:58-68, and a NEP-2 text moved between versions *)
Example C96_example :
  (do b <- unhexlify (VStr (str "42112378ffa32c4c65d513aa350689dff6381154")); scripthash_to_address_v real_hashes 42 b) =
    Ok (str "J1DfV2jS511SMtP6dH5ckr3Nwf26kbFx7s") /\
  isValidPublicAddress real_hashes true (str "J1DfV2jS511SMtP6dH5ckr3Nwf26kbFx7s") = Ok false /\
  (do kp <- new_KeyPair real_hashes toy (VBytes key1); do t <- ExportNEP2_v real_hashes toy 42 kp (str "ab"); PrivateKeyFromNEP2_v real_hashes toy true 42 (VStr t) (str "ab")) = Ok key1 /\
  (do kp <- new_KeyPair real_hashes toy (VBytes key1); do t <- ExportNEP2_v real_hashes toy 42 kp (str "ab"); PrivateKeyFromNEP2_v real_hashes toy true 23 (VStr t) (str "ab")) = Raise ValueError.
Proof. repeat split; vm_compute; reflexivity. Qed.
