(** * P_KeyPair: properties C51-C54, C71, C80

    [H]: arbitrary hash functions with the right digest lengths; [L]: arbitrary libraries
    satisfying [keylib_ok]; [rs]: either kind of base58 release. *)
From Coq Require Import String Lia ZifyBool ZifyNat ZifyN.
From Verif Require Import M_Py M_Hash M_Base58 M_UInt M_Helper M_ECCurve M_KeyPair S_IO S_IO2 S_UInt S_Address S_EC S_KeyPair.
From Verif Require Import L_Bytes L_Hex L_UInt L_Base58 L_Address L_IO L_Fermat L_Field L_EC L_EC2 P_Helper P_Address P_EC.
Ltac Zify.zify_post_hook ::= Z.div_mod_to_equations.

Lemma checksum_length H p : hash_ok H -> length (checksum H p) = 4%nat.
Proof. intros [O _]. unfold checksum. rewrite firstn_length, O. reflexivity. Qed.

Lemma firstn_S_nth {A} (d : A) n r : (n < length r)%nat -> firstn (S n) r = firstn n r ++ [nth n r d].
Proof. revert r. induction n as [|n IH]; intros [|y r] Hr; cbn [length] in Hr; try lia; [reflexivity|]. cbn [firstn nth app]. f_equal. apply (IH r). lia. Qed.

(** ** C51 WIF *)
Lemma export_data H k h P : length k = 32%nat -> hash_ok H ->
  Export H (mkKeyPair k P h) = ascii_decode (b58encode ((x80 :: k ++ [x01]) ++ checksum H (x80 :: k ++ [x01]))).
Proof.
  intros Lk O. unfold Export. cbn [kp_PrivateKey]. rewrite (firstn_all2 k) by lia.
  assert (E1 : set_at 33 x01 (set_slice 1 33 k (set_at 0 x80 (repeat x00 38))) = (x80 :: k ++ [x01]) ++ repeat x00 4).
  { change (set_slice 1 33 k (set_at 0 x80 (repeat x00 38))) with ((x80 :: k) ++ [x00; x00; x00; x00; x00]). unfold set_at.
    assert (L33 : length (x80 :: k) = 33%nat) by (cbn; lia). rewrite firstn_app, (firstn_all2 (x80 :: k)) by lia.
    rewrite skipn_app. rewrite (skipn_all2 (x80 :: k)) by lia. rewrite L33. cbn [firstn skipn Nat.sub app repeat]. rewrite app_nil_r, <- app_assoc. reflexivity. }
  rewrite E1. set (d := x80 :: k ++ [x01]). assert (Ld : length d = 34%nat) by (unfold d; cbn; rewrite app_length; cbn; lia).
  assert (F : firstn 34 (d ++ repeat x00 4) = d) by (rewrite <- Ld, firstn_app, Nat.sub_diag, firstn_all, app_nil_r; reflexivity).
  rewrite F. unfold set_slice. rewrite F. rewrite (skipn_all2 (d ++ _)) by (rewrite app_length, Ld; cbn; lia). rewrite app_nil_r. reflexivity.
Qed.
Lemma wif_shape H k t : hash_ok H -> WIF H k t -> zlen t = 52 /\ (nth 0 t 0 = 75 \/ nth 0 t 0 = 76).
Proof.
  intros O [Lk B]. unfold B58Check in B. cbn [app] in B. set (rest := (k ++ [x01]) ++ checksum H (x80 :: k ++ [x01])) in *.
  assert (Lr : zlen rest = 37) by (unfold rest, zlen; rewrite !app_length, Lk, checksum_length by exact O; reflexivity).
  pose proof (le2z_bound (rev rest)) as R. rewrite zlen_rev, Lr in R.
  assert (HV : horner 256 (map b2z (x80 :: rest)) = 128 * 256 ^ 37 + le2z (rev rest)) by (rewrite horner_cons, Lr; reflexivity).
  assert (N : 18 * 58 ^ 51 <= 128 * 256 ^ 37 /\ 129 * 256 ^ 37 <= 20 * 58 ^ 51) by (vm_compute; split; discriminate).
  destruct (Z_lt_dec (horner 256 (map b2z (x80 :: rest))) (19 * 58 ^ 51)) as [C|C].
  - destruct (B58_first x80 rest t 52 18 ltac:(discriminate) B ltac:(lia) ltac:(lia)) as [A1 A2]; [rewrite HV in *; change (52 - 1) with 51; change (18 + 1) with 19; lia|].
    split; [exact A1|]. left. rewrite A2. reflexivity.
  - destruct (B58_first x80 rest t 52 19 ltac:(discriminate) B ltac:(lia) ltac:(lia)) as [A1 A2]; [rewrite HV in *; change (52 - 1) with 51; change (19 + 1) with 20; lia|].
    split; [exact A1|]. right. rewrite A2. reflexivity.
Qed.
(** what Export produces: the WIF text, 52 Base58 characters of which the first is K or L *)
Theorem C51_export : forall H kp, hash_ok H -> length (kp_PrivateKey kp) = 32%nat ->
  WIF H (kp_PrivateKey kp) (Export H kp) /\ zlen (Export H kp) = 52 /\ (nth 0 (Export H kp) 0 = 75 \/ nth 0 (Export H kp) 0 = 76).
Proof.
  intros H [k P h] O Lk. cbn [kp_PrivateKey] in *. assert (W : WIF H k (Export H (mkKeyPair k P h))).
  { split; [exact Lk|]. rewrite export_data by assumption. apply encode_B58. }
  split; [exact W|]. apply (wif_shape H k); assumption.
Qed.
Print Assumptions C51_export.

Lemma decode_arg rs v s d : text_arg v s -> Forall (fun c => 0 <= c) s ->
  (b58decode rs v = Ok d <-> exists t, trimmed (match v with VStr _ => white | _ => white_ascii end) rs s t /\ B58 d t).
Proof. intros T P. destruct T as [s|b]; [apply decode_str_iff, P|apply decode_bytes_iff]. Qed.
Lemma trimmed_len w rs s t : trimmed w rs s t -> zlen t <= zlen s /\ (zlen t = zlen s -> t = s).
Proof.
  destruct rs; cbn; [|intros ->; split; [lia|reflexivity]]. intros (h & -> & _). rewrite zlen_app. split; [unfold zlen; lia|].
  intros E. destruct h; [rewrite app_nil_r; reflexivity|]. rewrite zlen_cons in E. unfold zlen in E. lia.
Qed.
Lemma trimmed_self w rs v t : (forall c, In c b58_chars -> ~ w c) -> B58 v t -> trimmed w rs t t.
Proof. apply B58_self_trim. Qed.
Lemma arg_len v s : text_arg v s -> py_len v = Ok (zlen s).
Proof. intros [x|b]; cbn; [reflexivity|]. rewrite zlen_map. reflexivity. Qed.

(** PrivateKeyFromWIF accepts exactly the WIF texts, and returns the key they stand for *)
Theorem C51_import_iff : forall H rs v s k, hash_ok H -> text_arg v s -> Forall (fun c => 0 <= c) s ->
  (PrivateKeyFromWIF H rs v = Ok k <-> WIF H k s).
Proof.
  intros H rs v s k O T P. unfold PrivateKeyFromWIF. rewrite (arg_len v s T). cbn [rbind]. split.
  - destruct (zlen s =? 52) eqn:L; cbn [negb]; [|discriminate]. apply Z.eqb_eq in L. destruct (b58decode rs v) as [d|] eqn:D; [|discriminate]. cbn [rbind].
    destruct (negb (zlen d =? 38) || negb (b2z (nth 0 d x00) =? 128) || negb (b2z (nth 33 d x00) =? 1)) eqn:G; [discriminate|].
    destruct (list_eq_dec _ _ _) as [C|]; [|discriminate]. intros E. assert (k = slice 1 33 d) as -> by congruence.
    apply (decode_arg rs v s d T P) in D. destruct D as (t & Tr & B).
    assert (Ld : length d = 38%nat) by (unfold zlen in G; lia).
    assert (X0 : nth 0 d x00 = x80) by (apply b2z_inj; change (b2z x80) with 128; lia).
    assert (X33 : nth 33 d x00 = x01) by (apply b2z_inj; change (b2z x01) with 1; lia).
    assert (F34 : firstn 34 d = x80 :: slice 1 33 d ++ [x01]).
    { unfold slice. destruct d as [|d0 r]; [discriminate|]. cbn [nth] in X0, X33. subst d0. cbn [firstn skipn]. f_equal. rewrite <- X33. apply (firstn_S_nth x00 32). cbn in Ld; lia. }
    assert (W : WIF H (slice 1 33 d) t).
    { split; [unfold slice; rewrite firstn_length, skipn_length; lia|]. unfold B58Check, checksum. rewrite <- F34. unfold bin_dbl_sha256 in C. rewrite C, firstn_skipn. exact B. }
    assert (t = s) as <-; [|exact W]. apply (trimmed_len _ _ _ _ Tr). apply wif_shape in W; [|exact O]. lia.
  - intros W. pose proof (wif_shape H k s O W) as [L _]. rewrite L. cbn [Z.eqb negb Pos.eqb]. destruct W as [Lk B].
    assert (D : b58decode rs v = Ok ((x80 :: k ++ [x01]) ++ checksum H (x80 :: k ++ [x01]))).
    { apply (decode_arg rs v s _ T P). exists s. split; [|exact B]. destruct T; (eapply trimmed_self; [|exact B]); [apply chars_not_white|apply chars_not_white_ascii]. }
    rewrite D. cbn [rbind]. set (pl := x80 :: k ++ [x01]). assert (Lp : length pl = 34%nat) by (unfold pl; cbn; rewrite app_length; cbn; lia).
    assert (G : zlen (pl ++ checksum H pl) = 38) by (unfold zlen; rewrite app_length, Lp, checksum_length by exact O; reflexivity). rewrite G.
    assert (nth 0 (pl ++ checksum H pl) x00 = x80) as -> by reflexivity.
    assert (nth 33 (pl ++ checksum H pl) x00 = x01) as ->.
    { rewrite app_nth1 by lia. unfold pl. cbn [nth]. rewrite app_nth2 by lia. rewrite Lk. reflexivity. }
    change (b2z x80 =? 128) with true. change (b2z x01 =? 1) with true. cbn [negb orb Z.eqb Pos.eqb].
    assert (F : firstn 34 (pl ++ checksum H pl) = pl) by (rewrite <- Lp, firstn_app, Nat.sub_diag, firstn_all, app_nil_r; reflexivity).
    assert (S : skipn 34 (pl ++ checksum H pl) = checksum H pl) by (rewrite <- Lp, skipn_app, Nat.sub_diag, skipn_all; reflexivity).
    rewrite F, S. destruct (list_eq_dec _ _ _) as [_|N]; [|exfalso; apply N; reflexivity]. f_equal.
    unfold slice, pl. cbn [skipn app]. change (33 - 1)%nat with 32%nat. rewrite <- Lk. rewrite <- app_assoc, firstn_app, Nat.sub_diag, firstn_all, app_nil_r. reflexivity.
Qed.
Print Assumptions C51_import_iff.
Theorem C51_roundtrip : forall H rs kp, hash_ok H -> length (kp_PrivateKey kp) = 32%nat ->
  PrivateKeyFromWIF H rs (VStr (Export H kp)) = Ok (kp_PrivateKey kp).
Proof.
  intros H rs kp O Lk. destruct (C51_export H kp O Lk) as (W & _). apply (C51_import_iff H rs _ (Export H kp)); [exact O|constructor| |exact W].
  destruct W as [_ B]. eapply Forall_impl; [|eapply B58_chars; exact B]. intros c Hc. apply b58_chars_facts in Hc. lia.
Qed.
Print Assumptions C51_roundtrip.
(** an accepted text is exactly what Export writes for the returned key *)
Theorem C51_unique : forall H rs v s k P h, hash_ok H -> text_arg v s -> Forall (fun c => 0 <= c) s ->
  PrivateKeyFromWIF H rs v = Ok k -> length k = 32%nat /\ s = Export H (mkKeyPair k P h).
Proof.
  intros H rs v s k P h O T Ps E. apply (C51_import_iff H rs v s k O T Ps) in E. destruct E as [Lk B]. split; [exact Lk|].
  rewrite export_data by assumption. symmetry. apply B58_encode, B.
Qed.
Print Assumptions C51_unique.
(** every other text raises a ValueError (or its subclass UnicodeEncodeError); None raises TypeError *)
Theorem C51_rejects : forall H rs v s, text_arg v s -> (forall k, PrivateKeyFromWIF H rs v <> Ok k) ->
  exists e, PrivateKeyFromWIF H rs v = Raise e /\ is_ValueError e = true.
Proof.
  intros H rs v s T N. unfold PrivateKeyFromWIF in *. rewrite (arg_len v s T) in *. cbn [rbind] in *.
  destruct (negb (zlen s =? 52)); [eexists; split; reflexivity|].
  assert (D : (exists d, b58decode rs v = Ok d) \/ exists e, b58decode rs v = Raise e /\ is_ValueError e = true).
  { destruct T as [x|b]; [destruct (decode_str_fail rs x) as [X|(e & X & [-> | ->])]|destruct (decode_bytes_fail rs b) as [X|X]]; eauto. }
  destruct D as [[d D]|(e & D & E)]; rewrite D in *; cbn [rbind] in *; [|eauto].
  destruct (_ || _ || _); [eexists; split; reflexivity|]. destruct (list_eq_dec _ _ _); [exfalso; eapply N; reflexivity|eexists; split; reflexivity].
Qed.
Print Assumptions C51_rejects.
(** anything but text: TypeError, except that a bytearray of another length than 52 is a ValueError *)
Theorem C51_other_types : forall H rs v, (forall s, ~ text_arg v s) -> PrivateKeyFromWIF H rs v =
  Raise (match v with VBytearray b => if zlen b =? 52 then TypeError else ValueError | _ => TypeError end).
Proof.
  intros H rs v N. destruct v as [b|b|s|z|b|z| |]; try reflexivity; [destruct (N _ (text_bytes b))| |destruct (N _ (text_str s))].
  unfold PrivateKeyFromWIF. cbn [py_len rbind]. destruct (zlen b =? 52); reflexivity.
Qed.
Print Assumptions C51_other_types.

(** ** C54, C71: constructor and addresses *)
Lemma p_r1_eq : c_p secp256r1 = p_r1.
Proof. vm_compute. reflexivity. Qed.
Lemma infinity_iff x y : IsInfinity secp256r1 (x, y) = true <-> at_infinity x y.
Proof.
  unfold IsInfinity, at_infinity. rewrite point_eq_iff by (rewrite p_r1_eq; vm_compute; reflexivity). rewrite p_r1_eq. reflexivity.
Qed.
Lemma encode_finite x y : 0 <= x < 2 ^ 256 -> ~ at_infinity x y ->
  exists enc, compressed_key x y enc /\ encode_point secp256r1 (x, y) true LE = Ok (hexlify enc).
Proof.
  intros X I. unfold encode_point. destruct (IsInfinity secp256r1 (x, y)) eqn:E; [apply infinity_iff in E; contradiction|].
  destruct (be32_bytes x X) as [E1 B]. cbn [fst snd]. rewrite E1. cbn [rbind]. eexists. split; [|reflexivity].
  exists (rev (z2le 32 x)). split; [exact B|]. rewrite Zmod_even. destruct (Z.even y); reflexivity.
Qed.
Lemma encode_infinite x y : at_infinity x y -> encode_point secp256r1 (x, y) true LE = Ok [x00].
Proof. intros I. unfold encode_point. apply infinity_iff in I. rewrite I. reflexivity. Qed.
Lemma compressed_length x y enc : compressed_key x y enc -> length enc = 33%nat.
Proof. intros (xb & [L _] & ->). cbn. rewrite L. reflexivity. Qed.
Lemma compressed_unique x y enc enc' : compressed_key x y enc -> compressed_key x y enc' -> enc = enc'.
Proof.
  intros (xb & [L V] & ->) (xb' & [L' V'] & ->). f_equal. rewrite <- V in V'. rewrite !num_be_eq in V'.
  rewrite <- (rev_involutive xb), <- (rev_involutive xb'). f_equal. apply le2z_inj; [rewrite !rev_length; congruence|congruence].
Qed.
Definition hash160_uint (H : hashes) (b : bytes) : uint :=
  let h := ripemd160 H (sha256 H b) in mkUInt CUInt160 h (GetHashCode h).
Lemma ToScriptHash_bytes H d raw unhex : hash_ok H -> (if (zlen d >? 1) && unhex then unhexlify (VBytes d) else Ok d) = Ok raw ->
  ToScriptHash H (VBytes d) unhex = Ok (hash160_uint H raw).
Proof.
  intros [_ O] E. unfold ToScriptHash. cbn [py_len rbind]. assert ((if (zlen d >? 1) && unhex then unhexlify (VBytes d) else Ok d) = Ok raw) as E' by exact E.
  destruct ((zlen d >? 1) && unhex); rewrite E' || (assert (d = raw) as -> by congruence); cbn [rbind];
  (unfold bin_hash160; rewrite utf8_ascii by (eapply Forall_impl; [|apply hex_ascii]; cbn beta; lia); cbn [rbind];
   fold (hexlify (ripemd160 H (sha256 H raw))); rewrite unhexlify_hexlify; cbn [rbind];
   unfold new_UInt160, UIntBase_init; cbn [py_len rbind]; unfold zlen; rewrite O; reflexivity).
Qed.

Lemma hexlify_app a b : hexlify (a ++ b) = hexlify a ++ hexlify b.
Proof. unfold hexlify. rewrite <- map_app. f_equal. induction a as [|x a IH]; cbn [hex app]; congruence. Qed.
Lemma hexlify_zlen b : zlen (hexlify b) = 2 * zlen b.
Proof. unfold hexlify, zlen. rewrite map_length, hex_length. lia. Qed.
Lemma script_hex enc : bstr "21" ++ hexlify enc ++ bstr "ac" = hexlify (x21 :: enc ++ [xac]).
Proof. change (x21 :: enc ++ [xac]) with ([x21] ++ enc ++ [xac]). rewrite !hexlify_app. reflexivity. Qed.

(** ** C54 *)
Theorem C54_address : forall H kp x y, hash_ok H -> kp_PublicKey kp = (x, y) -> 0 <= x < 2 ^ 256 -> ~ at_infinity x y ->
  exists a enc redeem, GetAddress H kp = Ok a /\ key_address H x y a /\ zlen a = 34 /\ nth 0 a 0 = 65 /\
    encode_point secp256r1 (x, y) true LE = Ok enc /\ pubkey_to_redeem enc = Ok redeem /\
    scripthash_to_address H (redeem_to_scripthash H redeem) = a /\
    pubkey_to_pubhash H enc = Ok (redeem_to_scripthash H redeem) /\ key_scripthash H x y (redeem_to_scripthash H redeem).
Proof.
  intros H kp x y O E X I. destruct (encode_finite x y X I) as (enc & C & En). pose proof (compressed_length x y enc C) as Le.
  set (script := x21 :: enc ++ [xac]). set (h := ripemd160 H (sha256 H script)).
  assert (T : ToScriptHash H (VBytes (bstr "21" ++ hexlify enc ++ bstr "ac")) true = Ok (hash160_uint H script)).
  { rewrite script_hex. apply ToScriptHash_bytes; [exact O|]. rewrite hexlify_zlen. replace (2 * zlen _ >? 1) with true; [apply unhexlify_hexlify|].
    unfold zlen, script. cbn [length]. lia. }
  assert (R : pubkey_to_redeem (hexlify enc) = Ok script) by (unfold pubkey_to_redeem; rewrite script_hex; apply unhexlify_hexlify).
  assert (K : key_scripthash H x y h) by (exists enc; auto).
  exists (scripthash_to_address H h), (hexlify enc), script. unfold GetAddress. rewrite E, En. cbn [rbind]. rewrite T. cbn [rbind].
  split; [reflexivity|]. split; [exists h; split; [exact K|apply (address_B58 H h)]|].
  destruct (address_shape H h O) as [A1 A2]; [destruct O as [_ O2]; apply O2|]. split; [exact A1|]. split; [exact A2|]. split; [reflexivity|].
  split; [exact R|]. split; [reflexivity|]. split; [|exact K]. unfold pubkey_to_pubhash. rewrite R. reflexivity.
Qed.
Print Assumptions C54_address.
(** a key pair whose public key is infinity has no address *)
Theorem C54_infinity : forall H kp x y, kp_PublicKey kp = (x, y) -> at_infinity x y -> GetAddress H kp = Raise BinasciiError.
Proof. intros H kp x y E I. unfold GetAddress. rewrite E, (encode_infinite x y I). reflexivity. Qed.
Print Assumptions C54_infinity.
(** two public keys with the same address agree in x and in the parity of y, or exhibit a hash collision *)
Theorem C54_binding : forall H x y x' y' a, hash_ok H -> key_address H x y a -> key_address H x' y' a ->
  (x = x' /\ Z.even y = Z.even y') \/
  exists s s', s <> s' /\ length s = 35%nat /\ length s' = 35%nat /\ ripemd160 H (sha256 H s) = ripemd160 H (sha256 H s').
Proof.
  intros H x y x' y' a O (h & (e & C & ->) & B) (h' & (e' & C' & ->) & B').
  assert (Eh : ripemd160 H (sha256 H (x21 :: e ++ [xac])) = ripemd160 H (sha256 H (x21 :: e' ++ [xac]))).
  { pose proof (proj2 (C47_relation_is_one_to_one _ _ _ _ B B') eq_refl) as X.
    assert (forall p q, p ++ checksum H p = q ++ checksum H q -> p = q) as Inj.
    { intros p q Epq. destruct (split_checksum H (p ++ checksum H p) O) as [_ S]. rewrite <- (S p eq_refl). apply S, Epq. }
    apply Inj in X. congruence. }
  pose proof (compressed_length _ _ _ C) as Le. pose proof (compressed_length _ _ _ C') as Le'.
  destruct (list_eq_dec Byte.byte_eq_dec e e') as [<-|N].
  - left. destruct C as (xb & [Lx V] & ->). destruct C' as (xb' & [Lx' V'] & E'). assert (xb = xb') as <- by congruence. split; [congruence|].
    destruct (Z.even y), (Z.even y'); congruence.
  - right. exists (x21 :: e ++ [xac]), (x21 :: e' ++ [xac]). split; [intros E; assert (E2 : e ++ [xac] = e' ++ [xac]) by congruence; apply app_inv_tail in E2; contradiction|].
    cbn [length]. rewrite !app_length, Le, Le'. split; [reflexivity|]. split; [reflexivity|exact Eh].
Qed.
Print Assumptions C54_binding.

(** ** C71 *)
(** the hash stored as PublicKeyHash is over the bare compressed key, or the byte 0 *)
Definition stored_hash (H : hashes) (x y : Z) (u : uint) : Prop :=
  u_cls u = CUInt160 /\
  ((at_infinity x y /\ u_data u = ripemd160 H (sha256 H [x00])) \/
   (~ at_infinity x y /\ exists enc, compressed_key x y enc /\ u_data u = ripemd160 H (sha256 H enc))).
Lemma finish H x y : hash_ok H -> 0 <= x < 2 ^ 256 -> exists u,
  (do enc <- encode_point secp256r1 (x, y) true LE; ToScriptHash H (VBytes enc) true) = Ok u /\ stored_hash H x y u.
Proof.
  intros O X. destruct (IsInfinity secp256r1 (x, y)) eqn:E.
  - apply infinity_iff in E. rewrite (encode_infinite x y E). cbn [rbind]. exists (hash160_uint H [x00]). split; [apply ToScriptHash_bytes; [exact O|reflexivity]|]. split; [reflexivity|left; auto].
  - assert (I : ~ at_infinity x y) by (intros I; apply infinity_iff in I; congruence). destruct (encode_finite x y X I) as (enc & C & ->). cbn [rbind].
    exists (hash160_uint H enc). split; [|split; [reflexivity|right; split; [exact I|exists enc; auto]]].
    apply ToScriptHash_bytes; [exact O|]. rewrite hexlify_zlen. pose proof (compressed_length _ _ _ C). replace (2 * zlen enc >? 1) with true by (unfold zlen; lia). apply unhexlify_hexlify.
Qed.
Lemma num_be_range b : 0 <= num_be b < 256 ^ zlen b.
Proof. rewrite num_be_eq. rewrite <- zlen_rev. apply le2z_bound. Qed.
Lemma decode_pub f xb yb : length xb = 32%nat -> length yb = 32%nat -> decode_pubkey_bin (f :: xb ++ yb) = (num_be xb, num_be yb).
Proof.
  intros Lx Ly. unfold decode_pubkey_bin, slice. change (skipn 1 (f :: xb ++ yb)) with (xb ++ yb). change (skipn 33 (f :: xb ++ yb)) with (skipn 32 (xb ++ yb)). change (33 - 1)%nat with 32%nat. change (65 - 33)%nat with 32%nat.
  assert (firstn 32 (xb ++ yb) = xb) as -> by (rewrite <- Lx, firstn_app, Nat.sub_diag, firstn_all, app_nil_r; reflexivity).
  assert (skipn 32 (xb ++ yb) = yb) as -> by (rewrite <- Lx, skipn_app, Nat.sub_diag, skipn_all; reflexivity).
  rewrite firstn_all2 by lia. rewrite !num_be_eq. reflexivity.
Qed.
Lemma r256 b : length b = 32%nat -> 0 <= num_be b < 2 ^ 256.
Proof. intros Lb. pose proof (num_be_range b) as R. unfold zlen in R. rewrite Lb in R. change (256 ^ Z.of_nat 32) with (2 ^ 256) in R. exact R. Qed.

Theorem C71_lengths : forall H L v b, bytes_arg v b -> ~ In (length b) [32; 96; 104]%nat -> new_KeyPair H L v = Raise ValueError.
Proof.
  intros H L v b A N. cbn [In] in N. assert (G : negb (zlen b =? 32) && negb (zlen b =? 96) && negb (zlen b =? 104) = true) by (unfold zlen; lia).
  destruct A; unfold new_KeyPair; cbn [py_len rbind]; rewrite G; reflexivity.
Qed.
Print Assumptions C71_lengths.
(** 32 bytes: the public key is the curve library's answer for the curve of C80 *)
Theorem C71_private : forall H L v k f xb yb, hash_ok H -> bytes_arg v k -> length k = 32%nat ->
  privkey_to_pubkey L setup_curve k = Ok (f :: xb ++ yb) -> length xb = 32%nat -> length yb = 32%nat ->
  exists u, new_KeyPair H L v = Ok (mkKeyPair k (num_be xb, num_be yb) u) /\ stored_hash H (num_be xb) (num_be yb) u.
Proof.
  intros H L v k f xb yb O A Lk P Lx Ly. destruct (finish H (num_be xb) (num_be yb) O (r256 xb Lx)) as (u & U & S). exists u. split; [|exact S].
  assert (E : new_KeyPair H L v = new_KeyPair H L (VBytes k)) by (destruct A; reflexivity). rewrite E. unfold new_KeyPair. cbn [py_len rbind as_bytes].
  assert (zlen k = 32) as -> by (unfold zlen; lia). cbn [Z.eqb Pos.eqb negb andb]. rewrite P. cbn [rbind]. rewrite (decode_pub f xb yb Lx Ly).
  unfold last_n. rewrite Lk. cbn [Nat.sub skipn].
  destruct (encode_point secp256r1 (num_be xb, num_be yb) true LE) as [enc|]; [|discriminate]. cbn [rbind] in *. rewrite U. reflexivity.
Qed.
Print Assumptions C71_private.
Theorem C71_private_fails : forall H L v k e, bytes_arg v k -> length k = 32%nat -> privkey_to_pubkey L setup_curve k = Raise e ->
  new_KeyPair H L v = Raise PlainException.
Proof.
  intros H L v k e A Lk P. assert (E : new_KeyPair H L v = new_KeyPair H L (VBytes k)) by (destruct A; reflexivity). rewrite E. unfold new_KeyPair. cbn [py_len rbind as_bytes].
  assert (zlen k = 32) as -> by (unfold zlen; lia). cbn [Z.eqb Pos.eqb negb andb]. rewrite P. reflexivity.
Qed.
Print Assumptions C71_private_fails.
(** 96 or 104 bytes: the public key is read from the bytes before the last 32, whatever they are *)
Theorem C71_blob : forall H L v skip xb yb k, hash_ok H -> bytes_arg v (skip ++ xb ++ yb ++ k) ->
  (length skip = 0%nat \/ length skip = 8%nat) -> length xb = 32%nat -> length yb = 32%nat -> length k = 32%nat ->
  exists u, new_KeyPair H L v = Ok (mkKeyPair k (num_be xb, num_be yb) u) /\ stored_hash H (num_be xb) (num_be yb) u.
Proof.
  intros H L v sk xb yb k O A Ls Lx Ly Lk. destruct (finish H (num_be xb) (num_be yb) O (r256 xb Lx)) as (u & U & S). exists u. split; [|exact S].
  set (b := sk ++ xb ++ yb ++ k) in *. assert (E : new_KeyPair H L v = new_KeyPair H L (VBytes b)) by (destruct A; reflexivity). rewrite E. unfold new_KeyPair. cbn [py_len rbind as_bytes].
  assert (Lb : length b = (length sk + 96)%nat) by (unfold b; rewrite !app_length; lia).
  replace (negb (zlen b =? 32) && negb (zlen b =? 96) && negb (zlen b =? 104)) with false by (unfold zlen; lia). replace (zlen b =? 32) with false by (unfold zlen; lia). cbn [rbind].
  assert (Sk : slice (Z.to_nat (zlen b - 96)) (Z.to_nat (zlen b - 96) + 64) b = xb ++ yb).
  { unfold slice. replace (Z.to_nat (zlen b - 96)) with (length sk) by (unfold zlen; lia). replace (length sk + 64 - length sk)%nat with (length (xb ++ yb)) by (rewrite app_length; lia).
    unfold b. rewrite skipn_app, Nat.sub_diag, skipn_all. cbn [skipn app]. rewrite app_assoc, firstn_app, Nat.sub_diag, firstn_all, app_nil_r. reflexivity. }
  rewrite Sk, (decode_pub x04 xb yb Lx Ly).
  assert (La : last_n 32 b = k).
  { unfold last_n. replace (length b - 32)%nat with (length (sk ++ xb ++ yb)) by (rewrite !app_length; lia). unfold b. rewrite !app_assoc, skipn_app, Nat.sub_diag, skipn_all. reflexivity. }
  rewrite La. destruct (encode_point secp256r1 (num_be xb, num_be yb) true LE) as [enc|]; [|discriminate]. cbn [rbind] in *. rewrite U. reflexivity.
Qed.
Print Assumptions C71_blob.
Theorem C71_other_types : forall H L v, (forall b, ~ bytes_arg v b) -> new_KeyPair H L v = Raise TypeError \/
  (exists s, v = VStr s /\ ~ In (zlen s) [32; 96; 104] /\ new_KeyPair H L v = Raise ValueError).
Proof.
  intros H L v N. destruct v as [b|b|s| | | | |]; try (left; reflexivity); try (exfalso; eapply N; constructor).
  unfold new_KeyPair. cbn [py_len rbind as_bytes]. destruct (negb (zlen s =? 32) && negb (zlen s =? 96) && negb (zlen s =? 104)) eqn:G; [|left; reflexivity].
  right. exists s. split; [reflexivity|]. split; [cbn [In]; lia|reflexivity].
Qed.
Print Assumptions C71_other_types.

(** ** C52, C53 NEP-2 *)
Lemma B58_nonzero c rest t : b2z c <> 0 -> B58 (c :: rest) t -> exists ds, t = map b58_char ds /\ Forall (digit_ok 58) ds /\ (forall r, ds <> 0 :: r) /\
  val 58 (rev ds) = horner 256 (map b2z (c :: rest)).
Proof.
  intros C (k & w & ds & E & Hw & -> & Hd & F & V). destruct k as [|k]; [|exfalso; cbn in E; apply C; assert (c = x00) as -> by congruence; reflexivity].
  cbn [repeat app] in *. exists ds. split; [reflexivity|]. split; [exact F|]. split; [intros r ->; apply Hd; reflexivity|]. rewrite <- horner_val, E. symmetry. exact V.
Qed.
Lemma B58_two c rest t n d e : b2z c <> 0 -> B58 (c :: rest) t -> 2 <= n -> 0 < d < 58 -> 0 <= e < 58 ->
  (58 * d + e) * 58 ^ (n - 2) <= horner 256 (map b2z (c :: rest)) < (58 * d + e + 1) * 58 ^ (n - 2) ->
  zlen t = n /\ exists r, t = b58_char d :: b58_char e :: r.
Proof.
  intros C B N D E I. destruct (B58_nonzero c rest t C B) as (ds & -> & F & Nz & V). rewrite <- V in I. clear V.
  assert (P : 0 < 58 ^ (n - 2)) by (apply Z.pow_pos_nonneg; lia).
  assert (P1 : 58 ^ (n - 1) = 58 * 58 ^ (n - 2)) by (rewrite <- Z.pow_succ_r by lia; f_equal; lia).
  assert (P2 : 58 ^ n = 58 * 58 ^ (n - 1)) by (rewrite <- Z.pow_succ_r by lia; f_equal; lia).
  assert (L : zlen ds = n).
  { assert (NT : no_top_zero (rev ds)) by (apply no_top_rev, Nz). assert (Fr : Forall (digit_ok 58) (rev ds)) by (apply Forall_rev, F).
    pose proof (digits_unique 58 (rev ds) ltac:(lia) Fr NT) as U.
    assert (Q : zlen (divmod_digits 58 (val 58 (rev ds))) = n) by (apply digits_length; [lia|lia|nia]). rewrite U, zlen_rev in Q. exact Q. }
  rewrite zlen_map. split; [exact L|]. destruct ds as [|d' [|e' r]]; [cbn in L; lia|cbn in L; lia|]. rewrite !zlen_cons in L.
  cbn [rev] in I. rewrite !val_app, zlen_app, zlen_rev in I. cbn [val] in I. change (zlen [e']) with 1 in I. replace (zlen r) with (n - 2) in I by lia. replace (n - 2 + 1) with (n - 1) in I by lia.
  pose proof (Forall_inv F) as Fd. pose proof (Forall_inv (Forall_inv_tail F)) as Fe. pose proof (Forall_inv_tail (Forall_inv_tail F)) as Fr. unfold digit_ok in Fd, Fe.
  pose proof (val_bounds 58 (rev r) ltac:(lia) ltac:(apply Forall_rev, Fr)) as Bd. rewrite zlen_rev in Bd. replace (zlen r) with (n - 2) in Bd by lia.
  rewrite P1 in I. assert (58 * d + e = 58 * d' + e') by nia. assert (d' = d /\ e' = e) as [-> ->] by lia. exists (map b58_char r). reflexivity.
Qed.

(** the NEP-2 text of a private key, its address and the derived 64 bytes *)
Definition NEP2 (H : hashes) (L : keylib) (k : bytes) (a : pystr) (pwd : bytes) (t : pystr) : Prop :=
  let ah := checksum H (map z2b a) in
  let derived := scrypt_hash L pwd ah in
  exists xk enc, xored k (firstn 32 derived) xk /\ aes_encrypt L (skipn 32 derived) xk = Ok enc /\
    B58Check H ([x01; x42; xe0] ++ ah ++ enc) t.

Lemma xored_fun a b c : xored a b c -> c = xor_loop a b.
Proof.
  intros (L1 & L2 & N). apply (nth_ext _ _ x00 x00); [rewrite xor_loop_length by lia; lia|]. intros i Hi. apply b2z_inj. rewrite N, xor_loop_nth by lia. reflexivity.
Qed.
Lemma xor_bytes_xored a b c : xor_bytes (VBytes a) (VBytes b) = Ok c <-> xored a b c.
Proof.
  split.
  - cbn [xor_bytes]. destruct (zlen a =? zlen b) eqn:E; [|discriminate]. intros X. assert (c = xor_loop a b) as -> by congruence. assert (length a = length b) by (unfold zlen in E; lia).
    split; [lia|]. split; [apply xor_loop_length; lia|]. intros i Hi. apply xor_loop_nth; lia.
  - intros X. cbn [xor_bytes]. assert (length b = length a) by apply X. replace (zlen a =? zlen b) with true by (unfold zlen; lia). rewrite <- (xored_fun a b c X). reflexivity.
Qed.
Lemma xored_self a b c : xored a b c -> xored c b a.
Proof.
  intros (L1 & L2 & N). split; [lia|]. split; [lia|]. intros i Hi. rewrite N by lia. rewrite Z.lxor_assoc, Z.lxor_nilpotent, Z.lxor_0_r. reflexivity.
Qed.
Lemma address_hash_ok H a : Forall (fun c => In c b58_chars) a -> address_hash H a = Ok (checksum H (map z2b a)).
Proof. intros F. unfold address_hash. rewrite utf8_ascii; [reflexivity|]. eapply Forall_impl; [|exact F]. intros c Hc. apply b58_chars_facts, Hc. Qed.
Lemma GetAddress_chars H kp a : GetAddress H kp = Ok a -> Forall (fun c => In c b58_chars) a.
Proof.
  unfold GetAddress. destruct (encode_point _ _ _ _) as [enc|]; [|discriminate]. cbn [rbind]. destruct (ToScriptHash _ _ _) as [u|]; [|discriminate]. cbn [rbind].
  intros E. assert (a = scripthash_to_address H (u_data u)) as -> by (unfold ToAddress in E; congruence). eapply B58_chars. apply (address_B58 H).
Qed.
Lemma nep2_shape H L k a pwd t : hash_ok H -> keylib_ok L -> length k = 32%nat -> NEP2 H L k a pwd t -> zlen t = 58 /\ exists r, t = str "6P" ++ r.
Proof.
  intros O (K1 & K2 & K3 & K4 & K5) Lk. unfold NEP2. cbn zeta. set (ah := checksum H (map z2b a)). intros (xk & enc & (X1 & X2 & _) & A & B).
  assert (Le : length enc = 32%nat).
  { destruct (K3 (skipn 32 (scrypt_hash L pwd ah)) xk) as (e & E & Ee & _); [rewrite skipn_length, K2; reflexivity|unfold zlen; rewrite X2, Lk; reflexivity|].
    rewrite E in A. assert (e = enc) by congruence. subst e. lia. }
  unfold B58Check in B. cbn [app] in B. set (rest := x42 :: xe0 :: (ah ++ enc) ++ checksum H (x01 :: x42 :: xe0 :: ah ++ enc)) in *.
  set (tail := (ah ++ enc) ++ checksum H (x01 :: x42 :: xe0 :: ah ++ enc)) in *.
  assert (Lt : zlen tail = 40) by (unfold tail, zlen; rewrite !app_length, checksum_length, Le by exact O; unfold ah; rewrite checksum_length by exact O; reflexivity).
  assert (HV : horner 256 (map b2z (x01 :: rest)) = 82656 * 256 ^ 40 + le2z (rev tail)).
  { rewrite horner_cons. unfold rest. rewrite !zlen_cons, Lt. cbn [rev]. rewrite !le2z_app, zlen_app, zlen_rev, Lt. cbn [le2z]. change (zlen [xe0]) with 1.
    change (b2z x01) with 1. change (b2z x42) with 66. change (b2z xe0) with 224. replace (256 ^ (1 + (1 + 40))) with (65536 * 256 ^ 40) by reflexivity. replace (256 ^ (40 + 1)) with (256 * 256 ^ 40) by reflexivity. ring. }
  pose proof (le2z_bound (rev tail)) as Bt. rewrite zlen_rev, Lt in Bt.
  assert (Nn : (58 * 5 + 22) * 58 ^ (58 - 2) <= 82656 * 256 ^ 40 /\ 82657 * 256 ^ 40 <= (58 * 5 + 22 + 1) * 58 ^ (58 - 2)) by (vm_compute; split; discriminate).
  destruct (B58_two x01 rest t 58 5 22 ltac:(discriminate) B ltac:(lia) ltac:(lia) ltac:(lia)) as [A1 [r A2]]; [rewrite HV; lia|].
  split; [exact A1|]. exists r. rewrite A2. reflexivity.
Qed.

(** ExportNEP2 writes the NEP-2 text: 58 Base58 characters, the first two being 6P *)
Theorem C52_export : forall H L kp a pass pwd, hash_ok H -> keylib_ok L -> length (kp_PrivateKey kp) = 32%nat -> GetAddress H kp = Ok a ->
  2 <= zlen pass -> utf8_encode (nfc L pass) = Ok pwd ->
  exists t, ExportNEP2 H L kp pass = Ok t /\ NEP2 H L (kp_PrivateKey kp) a pwd t /\ zlen t = 58 /\ exists r, t = str "6P" ++ r.
Proof.
  intros H L kp a pass pwd O K Lk Ga Lp U. pose proof K as (K1 & K2 & K3 & K4 & K5). pose proof (GetAddress_chars H kp a Ga) as Ca.
  set (k := kp_PrivateKey kp) in *. set (ah := checksum H (map z2b a)). set (derived := scrypt_hash L pwd ah).
  assert (Ld1 : length (firstn 32 derived) = 32%nat) by (rewrite firstn_length; unfold derived; rewrite K2; reflexivity).
  assert (Ld2 : length (skipn 32 derived) = 32%nat) by (rewrite skipn_length; unfold derived; rewrite K2; reflexivity).
  assert (X : xored k (firstn 32 derived) (xor_loop k (firstn 32 derived))).
  { apply xor_bytes_xored. cbn [xor_bytes]. replace (zlen k =? _) with true by (unfold zlen; lia). reflexivity. }
  destruct (K3 (skipn 32 derived) (xor_loop k (firstn 32 derived)) Ld2) as (enc & Ae & _); [destruct X as (_ & X & _); unfold zlen; rewrite X, Lk; reflexivity|].
  assert (Sp : NEP2 H L k a pwd (ascii_decode (b58encode_check H (NEP_HEADER ++ NEP_FLAG ++ ah ++ enc)))).
  { exists (xor_loop k (firstn 32 derived)), enc. split; [exact X|]. split; [exact Ae|]. apply encode_B58. }
  eexists. split; [|split; [exact Sp|apply (nep2_shape H L k a pwd); assumption]].
  unfold ExportNEP2. replace (zlen pass <? 2) with false by lia. rewrite Ga. cbn [rbind]. rewrite (address_hash_ok H a Ca). cbn [rbind]. rewrite U. cbn [rbind].
  fold k ah derived. rewrite (proj2 (xor_bytes_xored _ _ _) X). cbn [rbind]. rewrite Ae. reflexivity.
Qed.
Print Assumptions C52_export.
Theorem C52_short_passphrase : forall H L kp pass, zlen pass < 2 -> ExportNEP2 H L kp pass = Raise ValueError.
Proof. intros H L kp pass Hp. unfold ExportNEP2. replace (zlen pass <? 2) with true by lia. reflexivity. Qed.
Print Assumptions C52_short_passphrase.

Lemma truthy_text v s : text_arg v s -> zlen s <> 0 -> truthy v = true.
Proof. intros [x|b] N; cbn; [destruct x|destruct b]; cbn in N; auto; lia. Qed.
(** what PrivateKeyFromNEP2 returns, and when *)
Theorem C53_import_iff : forall H L rs v s pass k, hash_ok H -> text_arg v s -> Forall (fun c => 0 <= c) s ->
  (PrivateKeyFromNEP2 H L rs v pass = Ok k <->
   zlen s = 58 /\ exists t payload pwd dec kp a,
     trimmed (match v with VStr _ => white | _ => white_ascii end) rs s t /\ B58Check H payload t /\
     utf8_encode (nfc L pass) = Ok pwd /\
     (let ah := slice 3 7 payload in
      aes_decrypt L (skipn 32 (scrypt_hash L pwd ah)) (last_n 32 payload) = Ok dec /\
      xored dec (firstn 32 (scrypt_hash L pwd ah)) k /\
      new_KeyPair H L (VBytes k) = Ok kp /\ GetAddress H kp = Ok a /\ checksum H (map z2b a) = ah)).
Proof.
  intros H L rs v s pass k O T P. unfold PrivateKeyFromNEP2. split.
  - destruct (truthy v) eqn:Tv; cbn [negb]; [|rewrite (arg_len v s T); discriminate]. rewrite (arg_len v s T). cbn [rbind].
    destruct (zlen s =? 58) eqn:Ls; cbn [negb]; [|discriminate]. unfold b58decode_check. destruct (b58decode rs v) as [d|] eqn:D; [|discriminate]. cbn [rbind].
    destruct (list_eq_dec _ _ _) as [C|]; [|discriminate]. cbn [rbind]. destruct (split_checksum H d O) as [S1 S2]. apply S1 in C. destruct C as [payload ->].
    rewrite (S2 payload eq_refl). change (length NEP_FLAG + length NEP_HEADER)%nat with 3%nat. change (3 + 4)%nat with 7%nat.
    destruct (utf8_encode (nfc L pass)) as [pwd|] eqn:U; [|discriminate]. cbn [rbind]. destruct (aes_decrypt L _ _) as [dec|] eqn:A; [|discriminate]. cbn [rbind].
    destruct (xor_bytes (VBytes dec) _) as [k'|] eqn:X; [|discriminate]. cbn [rbind]. apply xor_bytes_xored in X.
    destruct (new_KeyPair H L (VBytes k')) as [kp|] eqn:K; [|discriminate]. cbn [rbind]. destruct (GetAddress H kp) as [a|] eqn:Ga; [|discriminate]. cbn [rbind].
    rewrite (address_hash_ok H a (GetAddress_chars H kp a Ga)). cbn [rbind]. destruct (list_eq_dec _ _ _) as [E|]; [|discriminate]. intros Ek. assert (k' = k) as -> by congruence.
    split; [lia|]. apply (decode_arg rs v s _ T P) in D. destruct D as (t & Tr & B). exists t, payload, pwd, dec, kp, a. cbn zeta. auto 10.
  - intros (Ls & t & payload & pwd & dec & kp & a & Tr & B & U & A & X & K & Ga & E). rewrite (truthy_text v s T) by lia. cbn [negb]. rewrite (arg_len v s T). cbn [rbind].
    rewrite Ls. cbn [Z.eqb Pos.eqb negb]. unfold b58decode_check. assert (D : b58decode rs v = Ok (payload ++ checksum H payload)) by (apply (decode_arg rs v s _ T P); exists t; auto).
    rewrite D. cbn [rbind]. destruct (split_checksum H (payload ++ checksum H payload) O) as [S1 S2]. rewrite (S2 payload eq_refl) in S1 |- *.
    destruct (list_eq_dec _ _ _) as [_|N]; [|exfalso; apply N, S1; eauto]. cbn [rbind]. change (length NEP_FLAG + length NEP_HEADER)%nat with 3%nat. change (3 + 4)%nat with 7%nat.
    rewrite U. cbn [rbind]. cbn zeta in A. rewrite A. cbn [rbind]. rewrite (proj2 (xor_bytes_xored _ _ _) X). cbn [rbind]. rewrite K. cbn [rbind]. rewrite Ga. cbn [rbind].
    rewrite (address_hash_ok H a (GetAddress_chars H kp a Ga)). cbn [rbind]. destruct (list_eq_dec _ _ _) as [_|N]; [reflexivity|congruence].
Qed.
Print Assumptions C53_import_iff.

Lemma B58_nonneg v t : B58 v t -> Forall (fun c => 0 <= c) t.
Proof. intros B. eapply Forall_impl; [|eapply B58_chars; exact B]. intros c Hc. apply b58_chars_facts in Hc. lia. Qed.
Lemma parts (h0 h1 h2 : byte) ah enc : length ah = 4%nat -> length enc = 32%nat ->
  slice 3 7 ([h0; h1; h2] ++ ah ++ enc) = ah /\ last_n 32 ([h0; h1; h2] ++ ah ++ enc) = enc.
Proof.
  intros La Le. split.
  - unfold slice. cbn [app skipn]. change (7 - 3)%nat with 4%nat. rewrite <- La, firstn_app, Nat.sub_diag, firstn_all, app_nil_r. reflexivity.
  - unfold last_n. rewrite app_assoc. replace (length _ - 32)%nat with (length ([h0; h1; h2] ++ ah)) by (rewrite !app_length; cbn [length]; lia).
    rewrite skipn_app, Nat.sub_diag, skipn_all. reflexivity.
Qed.
(** a key pair made from 32 bytes comes back, whatever three bytes stand before the address hash *)
Lemma import_any_header H L rs k kp a pass pwd xk enc h0 h1 h2 t : hash_ok H -> keylib_ok L -> length k = 32%nat ->
  new_KeyPair H L (VBytes k) = Ok kp -> GetAddress H kp = Ok a -> utf8_encode (nfc L pass) = Ok pwd ->
  let ah := checksum H (map z2b a) in let derived := scrypt_hash L pwd ah in
  xored k (firstn 32 derived) xk -> aes_encrypt L (skipn 32 derived) xk = Ok enc -> B58Check H ([h0; h1; h2] ++ ah ++ enc) t -> zlen t = 58 ->
  PrivateKeyFromNEP2 H L rs (VStr t) pass = Ok k.
Proof.
  intros O K Lk N Ga U ah derived X A B Lt. pose proof K as (K1 & K2 & K3 & K4 & K5).
  destruct (K3 (skipn 32 derived) xk) as (e & Ee & Le & De); [rewrite skipn_length; unfold derived; rewrite K2; reflexivity|destruct X as (_ & X & _); unfold zlen; rewrite X, Lk; reflexivity|].
  rewrite A in Ee. assert (e = enc) as -> by congruence. destruct (parts h0 h1 h2 ah enc) as [P1 P2]; [apply checksum_length, O|destruct X as (_ & X & _); lia|].
  apply (C53_import_iff H L rs (VStr t) t pass k O (text_str t)); [eapply B58_nonneg; exact B|]. split; [exact Lt|].
  exists t, ([h0; h1; h2] ++ ah ++ enc), pwd, xk, kp, a. split; [eapply B58_self_trim; [apply chars_not_white|exact B]|]. split; [exact B|]. split; [exact U|].
  cbn zeta. rewrite P1, P2. split; [exact De|]. split; [apply xored_self, X|]. split; [exact N|]. split; [exact Ga|reflexivity].
Qed.
Lemma private_of_32 H L k kp : length k = 32%nat -> new_KeyPair H L (VBytes k) = Ok kp -> kp_PrivateKey kp = k.
Proof.
  intros Lk. unfold new_KeyPair. cbn [py_len rbind as_bytes]. destruct (negb _ && _ && _); [discriminate|]. destruct (if zlen k =? 32 then _ else _) as [pub|]; [|discriminate]. cbn [rbind].
  destruct (encode_point _ _ _ _) as [enc|]; [|discriminate]. cbn [rbind]. destruct (ToScriptHash _ _ _) as [u|]; [|discriminate]. cbn [rbind]. intros E.
  assert (kp = mkKeyPair (last_n 32 k) (decode_pubkey_bin pub) u) as -> by congruence. cbn [kp_PrivateKey]. unfold last_n. rewrite Lk. reflexivity.
Qed.
(** the round trip: any passphrase with the same normal form opens the text *)
Theorem C52_roundtrip : forall H L rs k kp a pass pass' pwd, hash_ok H -> keylib_ok L -> length k = 32%nat ->
  new_KeyPair H L (VBytes k) = Ok kp -> GetAddress H kp = Ok a -> 2 <= zlen pass ->
  utf8_encode (nfc L pass) = Ok pwd -> nfc L pass' = nfc L pass ->
  exists t, ExportNEP2 H L kp pass = Ok t /\ PrivateKeyFromNEP2 H L rs (VStr t) pass' = Ok k.
Proof.
  intros H L rs k kp a pass pass' pwd O K Lk N Ga Lp U E. pose proof (private_of_32 H L k kp Lk N) as Pk.
  destruct (C52_export H L kp a pass pwd O K) as (t & Et & (xk & enc & X & A & B) & Lt & _); [rewrite Pk; exact Lk|exact Ga|exact Lp|exact U|].
  exists t. split; [exact Et|]. rewrite Pk in X. rewrite <- E in U. eapply import_any_header; eauto.
Qed.
Print Assumptions C52_roundtrip.
(** when the key pair's public key does not belong to the private key (C71_blob), the export can
    only be opened if both addresses have the same checksum *)
Theorem C52_foreign_public_key : forall H L rs kp a pass t k, hash_ok H -> keylib_ok L -> length (kp_PrivateKey kp) = 32%nat ->
  GetAddress H kp = Ok a -> ExportNEP2 H L kp pass = Ok t -> PrivateKeyFromNEP2 H L rs (VStr t) pass = Ok k ->
  k = kp_PrivateKey kp /\ exists kp' a', new_KeyPair H L (VBytes k) = Ok kp' /\ GetAddress H kp' = Ok a' /\
    checksum H (map z2b a') = checksum H (map z2b a).
Proof.
  intros H L rs kp a pass t k O K Lk Ga Ex Im. destruct (Z_lt_dec (zlen pass) 2) as [Lp|Lp]; [rewrite C52_short_passphrase in Ex by exact Lp; discriminate|].
  destruct (utf8_encode (nfc L pass)) as [pwd|] eqn:U.
  2:{ exfalso. unfold ExportNEP2 in Ex. replace (zlen pass <? 2) with false in Ex by lia. rewrite Ga in Ex. cbn [rbind] in Ex. rewrite (address_hash_ok H a (GetAddress_chars H kp a Ga)) in Ex. cbn [rbind] in Ex. rewrite U in Ex. discriminate. }
  destruct (C52_export H L kp a pass pwd O K Lk Ga ltac:(lia) U) as (t' & Et & (xk & enc & X & A & B) & Lt & _). assert (t' = t) as -> by congruence.
  apply (C53_import_iff H L rs (VStr t) t pass k O (text_str t)) in Im; [|eapply B58_nonneg; exact B].
  destruct Im as (_ & t2 & payload & pwd' & dec & kp' & a' & Tr & B' & U' & De & X' & N' & Ga' & Ck).
  assert (pwd' = pwd) as -> by congruence. pose proof K as (K1 & K2 & K3 & K4 & K5).
  set (ah := checksum H (map z2b a)) in *. set (derived := scrypt_hash L pwd ah) in *.
  destruct (K3 (skipn 32 derived) xk) as (e & Ee & Le & De'); [rewrite skipn_length; unfold derived; rewrite K2; reflexivity|destruct X as (_ & X2 & _); unfold zlen; rewrite X2, Lk; reflexivity|].
  rewrite A in Ee. assert (e = enc) as -> by congruence. destruct (parts x01 x42 xe0 ah enc) as [P1 P2]; [apply checksum_length, O|destruct X as (_ & X2 & _); lia|].
  assert (t2 = t) as ->. { apply trimmed_str in Tr. rewrite Tr. destruct rs; [|reflexivity]. apply no_trim. eapply Forall_impl; [|eapply B58_chars; exact B]. intros c Hc. apply b58_chars_facts, Hc. }
  assert (payload = [x01; x42; xe0] ++ ah ++ enc) as ->.
  { pose proof (proj2 (C47_relation_is_one_to_one _ _ _ _ B' B) eq_refl) as Ep. destruct (split_checksum H (payload ++ checksum H payload) O) as [_ S]. rewrite <- (S payload eq_refl). apply S, Ep. }
  rewrite P1 in *. rewrite P2 in De. fold derived in De, X'. rewrite De' in De. assert (dec = xk) as -> by congruence.
  split.
  - apply xored_fun in X'. apply xored_self, xored_fun in X. congruence.
  - exists kp', a'. auto.
Qed.
Print Assumptions C52_foreign_public_key.
(** the header and flag bytes are not looked at: any three bytes of which the first is 1..12 will do *)
Theorem C53_header_not_checked : forall H L rs k kp a pass pwd xk enc h0 h1 h2, hash_ok H -> keylib_ok L -> length k = 32%nat ->
  new_KeyPair H L (VBytes k) = Ok kp -> GetAddress H kp = Ok a -> utf8_encode (nfc L pass) = Ok pwd ->
  let ah := checksum H (map z2b a) in let derived := scrypt_hash L pwd ah in
  xored k (firstn 32 derived) xk -> aes_encrypt L (skipn 32 derived) xk = Ok enc -> 1 <= b2z h0 <= 12 ->
  exists t, B58Check H ([h0; h1; h2] ++ ah ++ enc) t /\ PrivateKeyFromNEP2 H L rs (VStr t) pass = Ok k.
Proof.
  intros H L rs k kp a pass pwd xk enc h0 h1 h2 O K Lk N Ga U ah derived X A Hh. pose proof K as (K1 & K2 & K3 & K4 & K5).
  pose proof (encode_B58 (([h0; h1; h2] ++ ah ++ enc) ++ checksum H ([h0; h1; h2] ++ ah ++ enc))) as B. eexists. split; [exact B|].
  eapply import_any_header; eauto. set (t := ascii_decode _) in *.
  destruct (K3 (skipn 32 derived) xk) as (e & Ee & Le & De); [rewrite skipn_length; unfold derived; rewrite K2; reflexivity|destruct X as (_ & X & _); unfold zlen; rewrite X, Lk; reflexivity|].
  assert (Lenc : length enc = 32%nat) by (rewrite A in Ee; assert (e = enc) as -> by congruence; destruct X as (_ & X & _); lia).
  cbn [app] in B. set (rest := h1 :: h2 :: (ah ++ enc) ++ checksum H (h0 :: h1 :: h2 :: ah ++ enc)) in *.
  assert (Lr : zlen rest = 42) by (unfold rest; rewrite !zlen_cons, !zlen_app; unfold zlen; rewrite Lenc; unfold ah; rewrite !checksum_length by exact O; reflexivity).
  destruct (B58_nonzero h0 rest t ltac:(lia) B) as (ds & -> & F & Nz & V). rewrite zlen_map, <- zlen_rev.
  rewrite <- (digits_unique 58 (rev ds) ltac:(lia) ltac:(apply Forall_rev, F) ltac:(apply no_top_rev, Nz)). apply digits_length; [lia|lia|].
  rewrite V, horner_cons, Lr. pose proof (le2z_bound (rev rest)) as Br. rewrite zlen_rev, Lr in Br.
  assert (58 ^ (58 - 1) <= 1 * 256 ^ 42 /\ 13 * 256 ^ 42 <= 58 ^ 58) by (vm_compute; split; discriminate). nia.
Qed.
Print Assumptions C53_header_not_checked.

Lemma B58_58_long d t : B58 d t -> zlen t = 58 -> 36 <= zlen d.
Proof.
  intros (k & w & ds & -> & Hw & -> & Hd & F & V) L. rewrite zlen_app, zlen_map in L. rewrite zlen_app. unfold zlen in *. rewrite repeat_length in *.
  destruct ds as [|d0 ds]; [cbn in L; lia|]. destruct (Z_lt_dec (Z.of_nat k + Z.of_nat (length w)) 36) as [C|]; [exfalso|lia].
  rewrite !horner_val in V. assert (F' : Forall (digit_ok 58) (rev (d0 :: ds))) by (apply Forall_rev, F).
  assert (NT : no_top_zero (rev (d0 :: ds))) by (apply no_top_rev; intros r E; apply Hd; rewrite E; reflexivity).
  pose proof (val_pos 58 (rev (d0 :: ds)) ltac:(lia) F' NT ltac:(intros E; apply (f_equal (@length Z)) in E; rewrite rev_length in E; discriminate)) as Lo. rewrite zlen_rev in Lo. unfold zlen in Lo.
  pose proof (le2z_bound (rev w)) as Hi. rewrite le2z_val, map_rev, zlen_rev in Hi. unfold zlen in Hi. rewrite V in Hi.
  assert (Ex : Z.of_nat (length (d0 :: ds)) - 1 = 57 - Z.of_nat k) by lia. rewrite Ex in Lo.
  assert (Kk : (k <= 35)%nat) by lia.
  assert (M : 256 ^ Z.of_nat (length w) <= 256 ^ (35 - Z.of_nat k)) by (apply Z.pow_le_mono_r; lia).
  assert (T : forallb (fun j => 256 ^ (35 - Z.of_nat j) <=? 58 ^ (57 - Z.of_nat j)) (seq 0 36) = true) by (vm_compute; reflexivity).
  rewrite forallb_forall in T. specialize (T k ltac:(apply in_seq; lia)). lia.
Qed.
(** anything but text: TypeError for what has no length, ValueError for a bytearray *)
Theorem C53_other_types : forall H L rs v pass, (forall s, ~ text_arg v s) -> PrivateKeyFromNEP2 H L rs v pass =
  Raise (match v with VBytearray _ => ValueError | _ => TypeError end).
Proof.
  intros H L rs v pass N. destruct v as [b|b|s|z|b|z| |]; try reflexivity; [destruct (N _ (text_bytes b))| |destruct (N _ (text_str s))| | |];
    unfold PrivateKeyFromNEP2; [|destruct (negb (truthy _)); reflexivity..].
  cbn [py_len rbind]. destruct (negb (truthy _)); [reflexivity|]. destruct (negb (zlen b =? 58)); reflexivity.
Qed.
Print Assumptions C53_other_types.
(** how an import can fail *)
Theorem C53_failures : forall H L rs v s pass e, hash_ok H -> keylib_ok L -> text_arg v s -> Forall (fun c => 0 <= c) s ->
  PrivateKeyFromNEP2 H L rs v pass = Raise e ->
  is_ValueError e = true \/
  (e = PlainException /\ exists k x, length k = 32%nat /\ privkey_to_pubkey L setup_curve k = Raise x) \/
  (e = AssertionError /\ rs = true).
Proof.
  intros H L rs v s pass e O K T P. pose proof K as (K1 & K2 & K3 & K4 & K5). unfold PrivateKeyFromNEP2.
  destruct (truthy v); cbn [negb]; [|rewrite (arg_len v s T); cbn [rbind]; intros E; assert (e = ValueError) as -> by congruence; left; reflexivity].
  rewrite (arg_len v s T). cbn [rbind]. destruct (zlen s =? 58) eqn:Ls; cbn [negb]; [|intros E; assert (e = ValueError) as -> by congruence; left; reflexivity].
  destruct (b58decode_check H rs v) as [payload|] eqn:D; [|cbn [rbind]; intros E; assert (e = ValueError) as -> by congruence; left; reflexivity]. cbn [rbind].
  change (length NEP_FLAG + length NEP_HEADER)%nat with 3%nat. change (3 + 4)%nat with 7%nat.
  destruct (utf8_encode (nfc L pass)) as [pwd|e0] eqn:U.
  2:{ cbn [rbind]. unfold utf8_encode in U. destruct (existsb _ _); [|discriminate]. intros E. assert (e = UnicodeError) as -> by congruence. left. reflexivity. }
  cbn [rbind]. set (derived := scrypt_hash L pwd _). assert (Ld : length derived = 64%nat) by (apply K2).
  destruct (Z.eq_dec (zlen (last_n 32 payload) mod 16) 0) as [M|M].
  2:{ rewrite K5 by (try exact M; rewrite skipn_length; lia). cbn [rbind]. intros E. assert (e = ValueError) as -> by congruence. left. reflexivity. }
  destruct (K4 (skipn 32 derived) (last_n 32 payload)) as (dec & Ad & Ldec); [rewrite skipn_length; lia|exact M|]. rewrite Ad. cbn [rbind].
  destruct (xor_bytes (VBytes dec) (VBytes (firstn 32 derived))) as [k|ex] eqn:X.
  2:{ cbn [rbind]. intros E. cbn [xor_bytes] in X. destruct (zlen dec =? _) eqn:Lq; [discriminate|]. right. right. split; [congruence|]. destruct rs; [reflexivity|]. exfalso.
      unfold b58decode_check in D. destruct (b58decode false v) as [d|] eqn:Dd; [|discriminate]. cbn [rbind] in D. destruct (list_eq_dec _ _ _); [|discriminate].
      apply (decode_arg false v s d T P) in Dd. destruct Dd as (t & Tr & B). cbn in Tr. subst t. pose proof (B58_58_long d s B ltac:(lia)) as Ll. assert (payload = drop_last 4 d) as -> by congruence.
      unfold zlen in *. unfold last_n, drop_last in *. rewrite skipn_length, firstn_length in Ldec. rewrite firstn_length in Lq. lia. }
  cbn [rbind]. apply xor_bytes_xored in X. destruct X as (X1 & X2 & _). rewrite firstn_length, Ld in X1.
  assert (Lk : length k = 32%nat) by (cbn [Nat.min] in X1; lia).
  destruct (privkey_to_pubkey L setup_curve k) as [pub|ex] eqn:Pu.
  - assert (Sp : exists f xb yb, pub = f :: xb ++ yb /\ length xb = 32%nat /\ length yb = 32%nat).
    { pose proof (K1 _ _ _ Pu) as Lp. destruct pub as [|f r]; [discriminate|]. cbn in Lp. exists f, (firstn 32 r), (skipn 32 r). rewrite firstn_skipn, firstn_length, skipn_length. split; [reflexivity|]. lia. }
    destruct Sp as (f & xb & yb & -> & Lx & Ly). destruct (C71_private H L (VBytes k) k f xb yb O (bytes_b k) Lk Pu Lx Ly) as (u & N & _). rewrite N. cbn [rbind].
    set (kp := mkKeyPair k _ u). destruct (IsInfinity secp256r1 (num_be xb, num_be yb)) eqn:I.
    + apply infinity_iff in I. rewrite (C54_infinity H kp (num_be xb) (num_be yb) eq_refl I). cbn [rbind]. intros E. assert (e = BinasciiError) as -> by congruence. left. reflexivity.
    + assert (I' : ~ at_infinity (num_be xb) (num_be yb)) by (intros I'; apply infinity_iff in I'; congruence).
      destruct (C54_address H kp (num_be xb) (num_be yb) O eq_refl (r256 xb Lx) I') as (a & _ & _ & Ga & _). rewrite Ga. cbn [rbind].
      rewrite (address_hash_ok H a (GetAddress_chars H kp a Ga)). cbn [rbind]. destruct (list_eq_dec _ _ _); [discriminate|]. intros E. assert (e = ValueError) as -> by congruence. left. reflexivity.
  - rewrite (C71_private_fails H L (VBytes k) k ex (bytes_b k) Lk Pu). cbn [rbind]. intros E. right. left. split; [congruence|eauto].
Qed.
Print Assumptions C53_failures.

(** ** a concrete instance of the hypotheses

    A toy library: the public key of the number 1 is the base point, of 0 infinity, other keys
    are refused; the cipher is exclusive-or with the key; the key derivation is SHA-256. *)
Definition toy_pub (c : curve_params) (k : bytes) : res bytes :=
  if num_be k =? 1 then Ok (x04 :: z2bytes BE 32 (cp_gx c) ++ z2bytes BE 32 (cp_gy c))
  else if num_be k =? 0 then Ok (repeat x00 65) else Raise PlainException.
Definition toy_cipher (k d : bytes) : res bytes :=
  if (zlen d mod 16 =? 0) then Ok (map (fun b => z2b (Z.lxor (b2z b) (b2z (nth 0 k x00)))) d) else Raise ValueError.
Definition toy : keylib := mkKeylib toy_pub (fun p s => real_sha256 (p ++ s) ++ real_sha256 (s ++ p)) toy_cipher toy_cipher (fun s => s).
Lemma toy_ok : keylib_ok toy.
Proof.
  assert (Ln : forall b, length (real_sha256 b) = 32%nat) by (apply real_hashes_ok).
  assert (Inv : forall k d e, toy_cipher k d = Ok e -> toy_cipher k e = Ok d /\ length e = length d).
  { unfold toy_cipher. intros k d e. destruct (zlen d mod 16 =? 0) eqn:M; [|discriminate]. intros E. assert (e = map (fun b => z2b (Z.lxor (b2z b) (b2z (nth 0 k x00)))) d) as -> by congruence.
    rewrite zlen_map, M, map_map, map_length. split; [|reflexivity]. f_equal. rewrite <- (map_id d) at 2. apply map_ext. intros b. generalize (nth 0 k x00). intros c.
    assert (Lb : length [b] = length [c]) by reflexivity. apply b2z_inj.
    pose proof (xor_loop_nth [b] [c] 0 eq_refl ltac:(cbn; lia)) as N1. cbn [xor_loop nth] in N1.
    pose proof (xor_loop_nth [z2b (Z.lxor (b2z b) (b2z c))] [c] 0 eq_refl ltac:(cbn; lia)) as N2. cbn [xor_loop nth] in N2. rewrite N2, N1, Z.lxor_assoc, Z.lxor_nilpotent, Z.lxor_0_r. reflexivity. }
  split; [|split; [|split; [|split]]]; cbn [privkey_to_pubkey scrypt_hash aes_encrypt aes_decrypt toy].
  - intros c k b. unfold toy_pub. destruct (num_be k =? 1); [intros E; assert (b = x04 :: z2bytes BE 32 (cp_gx c) ++ z2bytes BE 32 (cp_gy c)) as -> by congruence; cbn [length]; rewrite app_length, !z2bytes_length; reflexivity|].
    destruct (num_be k =? 0); [|discriminate]. intros E. assert (b = repeat x00 65) as -> by congruence. reflexivity.
  - intros p s. rewrite app_length, !Ln. reflexivity.
  - intros k d _ M. destruct (toy_cipher k d) as [e|] eqn:E; [|unfold toy_cipher in E; rewrite (proj2 (Z.eqb_eq _ _) M) in E; discriminate]. exists e. destruct (Inv _ _ _ E). auto.
  - intros k d _ M. unfold toy_cipher. rewrite (proj2 (Z.eqb_eq _ _) M). eexists. split; [reflexivity|]. apply map_length.
  - intros k d _ M. unfold toy_cipher. destruct (zlen d mod 16 =? 0) eqn:E; [lia|reflexivity].
Qed.
Definition key1 : bytes := repeat x00 31 ++ [x01].
Definition run_nep2 (pass pass' : pystr) : res bytes :=
  do kp <- new_KeyPair real_hashes toy (VBytes key1); do t <- ExportNEP2 real_hashes toy kp pass; PrivateKeyFromNEP2 real_hashes toy true (VStr t) pass'.

Example C51_example : exists kp, new_KeyPair real_hashes toy (VBytes key1) = Ok kp /\ Export real_hashes kp = str "KwDiBf89QgGbjEhKnhXJuH7LrciVrZi3qYjgd9M7rFU73sVHnoWn" /\
  PrivateKeyFromWIF real_hashes true (VStr (str "KwDiBf89QgGbjEhKnhXJuH7LrciVrZi3qYjgd9M7rFU73sVHnoWn")) = Ok key1 /\
  rmap hex (PrivateKeyFromWIF real_hashes false (VStr (str "L44B5gGEpqEDRS9vVPz7QT35jcBG2r3CZwSwQ4fCewXAhAhqGVpP"))) =
    Ok (str "cbf4b9f70470856bb4f40f80b87edb90865997ffee6df315ab166d713af433a5") /\
  PrivateKeyFromWIF real_hashes true (VStr (str "KwDiBf89QgGbjEhKnhXJuH7LrciVrZi3qYjgd9M7rFU73sVHnoWm")) = Raise ValueError /\
  PrivateKeyFromWIF real_hashes true (VStr (str "brokenwif")) = Raise ValueError.
Proof. eexists. split; [vm_compute; reflexivity|]. repeat split; vm_compute; reflexivity. Qed.
Example C52_example : keylib_ok toy /\ hash_ok real_hashes /\ run_nep2 (str "ab") (str "ab") = Ok key1 /\ run_nep2 (str "a") (str "a") = Raise ValueError.
Proof. split; [exact toy_ok|]. split; [exact real_hashes_ok|]. split; vm_compute; reflexivity. Qed.
Example C53_example : run_nep2 (str "ab") (str "ac") = Raise PlainException /\ PrivateKeyFromNEP2 real_hashes toy true VNone [] = Raise TypeError /\
  PrivateKeyFromNEP2 real_hashes toy true (VStr (str "invalid")) (str "pwd") = Raise ValueError /\
  PrivateKeyFromNEP2 real_hashes toy true (VStr (repeat 65 58)) (str "pwd") = Raise ValueError.
Proof. repeat split; vm_compute; reflexivity. Qed.
Example C54_example : (do kp <- new_KeyPair real_hashes toy (VBytes key1); GetAddress real_hashes kp) = Ok (str "AR6NuGFzZfzqbXR3YasfXNmR3VHVNKi2yo") /\
  (do kp <- new_KeyPair real_hashes toy (VBytes (repeat x00 32)); GetAddress real_hashes kp) = Raise BinasciiError.
Proof. split; vm_compute; reflexivity. Qed.
(** tests/test_KeyPair.py:24-30 *)
Example C71_example : (do b <- unhexlify (VStr (str "5b5c8cdcb32f8e278e111a0bf58ebb463988024bb4e250aa4310b40252030b60ddc4995bac00298b22731de7a83fa49ded2aceea69fa3dd872937020c8a9b6c66164f6569b23df58c54c746e7684251a17653a4b32f1b44a5703fdad948e755d"));
    do kp <- new_KeyPair real_hashes toy (VBytes b); do e <- encode_point secp256r1 (kp_PublicKey kp) true LE; Ok (ascii_decode e)) =
  Ok (str "025b5c8cdcb32f8e278e111a0bf58ebb463988024bb4e250aa4310b40252030b60") /\
  new_KeyPair real_hashes toy (VBytes (bstr "ABCD")) = Raise ValueError /\ new_KeyPair real_hashes toy (VBytes (repeat x41 32)) = Raise PlainException.
Proof. repeat split; vm_compute; reflexivity. Qed.
