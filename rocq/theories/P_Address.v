(** * P_Address: properties C47-C50 and C72

    [H] is an arbitrary pair of hash functions with 32- and 20-byte digests, [rs] an
    arbitrary choice of the base58 package's treatment of trailing white space. *)
From Coq Require Import String Lia ZifyBool ZifyNat ZifyN.
From Verif Require Import M_Py M_Hash M_Base58 M_UInt M_Helper S_IO S_IO2 S_UInt S_Address L_Bytes L_Hex L_UInt L_Base58 L_Address.
Ltac Zify.zify_post_hook ::= Z.div_mod_to_equations.

(** ** C47 Base58 round-trips and is a bijection *)
Theorem C47_roundtrip : forall rs v, b58decode rs (VBytes (b58encode v)) = Ok v /\
  b58decode rs (VStr (ascii_decode (b58encode v))) = Ok v.
Proof.
  intros rs v. pose proof (encode_B58 v) as B. split.
  - apply decode_bytes_iff. exists (ascii_decode (b58encode v)). split; [|exact B]. apply (B58_self_trim _ _ v); [apply chars_not_white_ascii|exact B].
  - apply decode_str_iff; [unfold ascii_decode; apply Forall_map, Forall_forall; intros x _; apply b2z_range|].
    exists (ascii_decode (b58encode v)). split; [|exact B]. apply (B58_self_trim _ _ v); [apply chars_not_white|exact B].
Qed.
Print Assumptions C47_roundtrip.
(** decoding any text over the alphabet succeeds and encodes back to that text *)
Theorem C47_onto : forall rs s, Forall (fun c => In c b58_chars) s ->
  exists v, b58decode rs (VStr s) = Ok v /\ ascii_decode (b58encode v) = s.
Proof.
  intros rs s F. assert (R : Forall (fun c => 0 <= c < 128) s) by (eapply Forall_impl; [|exact F]; intros c Hc; apply b58_chars_facts, Hc).
  assert (F' : Forall (fun c => In c b58_alphabet) (map z2b s)).
  { apply Forall_map. eapply Forall_impl; [|exact F]. cbn beta. intros c Hc. unfold b58_alphabet, bstr. apply in_map. exact Hc. }
  apply b58_decodes_iff in F'. destruct F' as [v D]. exists v. assert (B : B58 v s) by (apply B58_decode; auto). split.
  - apply decode_str_iff; [eapply Forall_impl; [|exact R]; cbn; lia|]. exists s. split; [|exact B]. apply (B58_self_trim _ _ v); [apply chars_not_white|exact B].
  - apply B58_encode, B.
Qed.
Print Assumptions C47_onto.
(** what both functions compute: the mathematical Base58 relation *)
Theorem C47_encode_spec : forall v t, ascii_decode (b58encode v) = t <-> B58 v t.
Proof. intros v t. split; [intros <-; apply encode_B58|apply B58_encode]. Qed.
Print Assumptions C47_encode_spec.
Theorem C47_decode_spec : forall rs s v, Forall (fun c => 0 <= c) s ->
  (b58decode rs (VStr s) = Ok v <-> exists t, trimmed white rs s t /\ B58 v t).
Proof. exact decode_str_iff. Qed.
Print Assumptions C47_decode_spec.
Theorem C47_relation_is_one_to_one : forall v v' t t', B58 v t -> B58 v' t' -> (v = v' <-> t = t').
Proof.
  intros v v' t t' B B'. split.
  - intros <-. rewrite <- (B58_encode _ _ B). apply B58_encode, B'.
  - intros <-. apply B58_decode in B. apply B58_decode in B'. destruct B as [B _], B' as [B' _]. congruence.
Qed.
Print Assumptions C47_relation_is_one_to_one.
Theorem C47_other_characters : forall rs s c, In c s -> ~ In c b58_chars -> ~ white c -> Forall (fun c => 0 <= c) s ->
  exists e, b58decode rs (VStr s) = Raise e /\ is_ValueError e = true.
Proof.
  intros rs s c I N W P. destruct (decode_str_fail rs s) as [[v D]|(e & E & [-> | ->])]; [|eauto|eauto].
  exfalso. apply decode_str_iff in D; [|exact P]. destruct D as (t & T & B). apply B58_chars in B.
  assert (In c t).
  { destruct rs; cbn in T; [|congruence]. destruct T as (h & -> & F & _). apply in_app_or in I. destruct I as [I|I]; [exact I|].
    rewrite Forall_forall in F. exfalso. exact (W (F c I)). }
  rewrite Forall_forall in B. apply N, B. assumption.
Qed.
Print Assumptions C47_other_characters.
Example C47_example : ascii_decode (b58encode (x00 :: x00 :: bstr "hello")) = str "11Cn8eVZg" /\
  b58decode true (VStr (str "11Cn8eVZg ")) = Ok (x00 :: x00 :: bstr "hello") /\
  b58decode false (VStr (str "11Cn8eVZg ")) = Raise ValueError /\ b58decode false (VStr (str "0")) = Raise ValueError.
Proof. repeat split; vm_compute; reflexivity. Qed.

(** ** addresses *)
Lemma address_B58 H sh : B58Check H (z2b 23 :: sh) (scripthash_to_address H sh).
Proof. apply encode_B58. Qed.
Lemma address_shape H sh : hash_ok H -> length sh = 20%nat ->
  zlen (scripthash_to_address H sh) = 34 /\ nth 0 (scripthash_to_address H sh) 0 = 65.
Proof.
  intros [O _] L. pose proof (address_B58 H sh) as B. unfold B58Check in B. cbn [app] in B. change 65 with (b58_char 9).
  set (rest := sh ++ checksum H (z2b 23 :: sh)) in *. assert (zlen rest = 24).
  { unfold rest. rewrite zlen_app. unfold zlen. rewrite L. unfold checksum. rewrite firstn_length, O. reflexivity. }
  apply (B58_first (z2b 23) rest); [discriminate|exact B|lia|lia|]. rewrite horner_cons, H0. change (b2z (z2b 23)) with 23.
  pose proof (le2z_bound (rev rest)) as R. rewrite zlen_rev, H0 in R.
  assert (9 * 58 ^ (34 - 1) <= 23 * 256 ^ 24 /\ 24 * 256 ^ 24 <= (9 + 1) * 58 ^ (34 - 1)) by (vm_compute; split; discriminate). lia.
Qed.

Lemma cli_accepts H rs a h : hash_ok H -> Forall (fun c => 0 <= c) a ->
  (cli_address_to_scripthash H rs a = Ok h <-> exists t p, trimmed white rs a t /\ B58Check H p t /\ h = skipn 1 p).
Proof.
  intros O P. pose proof O as [O1 _]. unfold cli_address_to_scripthash. split.
  - intros E. destruct (b58decode rs (VStr a)) as [d|] eqn:D; [|discriminate]. cbn [rbind] in E. apply decode_str_iff in D; [|exact P].
    destruct D as (t & T & B). destruct d as [|x r]; [discriminate|]. destruct (list_eq_dec _ _ _) as [C|]; [|discriminate].
    destruct (split_checksum H (x :: r) O) as [S1 S2]. apply S1 in C. destruct C as [p C]. exists t, p. split; [exact T|]. split; [unfold B58Check; rewrite <- C; exact B|].
    rewrite (S2 p C) in E. congruence.
  - intros (t & p & T & B & ->). assert (D : b58decode rs (VStr a) = Ok (p ++ checksum H p)) by (apply decode_str_iff; [exact P|]; exists t; auto).
    rewrite D. cbn [rbind]. pose proof (split_checksum H (p ++ checksum H p) O) as S.
    assert (Nd : p ++ checksum H p <> []). { intros Z. apply (f_equal (@length byte)) in Z. rewrite app_length in Z. unfold checksum in Z. rewrite firstn_length, O1 in Z. cbn in Z. lia. }
    assert (Ex : exists d, d = p ++ checksum H p) by eauto. destruct Ex as [d Ed]. rewrite <- Ed in *. destruct S as [S1 S2].
    destruct d as [|x r]; [congruence|]. destruct (list_eq_dec _ _ _) as [C|C].
    + rewrite (S2 p Ed). reflexivity.
    + exfalso. apply C, S1. exists p. exact Ed.
Qed.


(** ** C48 Addresses round-trip and always look like NEO addresses *)
Theorem C48_shape : forall H u, hash_ok H -> length (u_data u) = 20%nat ->
  let a := ToAddress H u in zlen a = 34 /\ nth 0 a 0 = 65 /\ Forall (fun c => In c b58_chars) a.
Proof.
  intros H u O L. cbn zeta. unfold ToAddress. destruct (address_shape H (u_data u) O L) as [A B]. split; [exact A|]. split; [exact B|].
  eapply B58_chars. apply (address_B58 H).
Qed.
Print Assumptions C48_shape.
Lemma address_nonneg H sh : Forall (fun c => 0 <= c) (scripthash_to_address H sh).
Proof. eapply Forall_impl; [|eapply B58_chars; apply (address_B58 H)]. intros c Hc. apply b58_chars_facts in Hc. lia. Qed.
Theorem C48_roundtrip : forall H rs u, hash_ok H -> cli_address_to_scripthash H rs (ToAddress H u) = Ok (u_data u).
Proof.
  intros H rs u O. apply cli_accepts; [exact O|apply address_nonneg|]. exists (ToAddress H u), (z2b 23 :: u_data u).
  split; [|split; [apply address_B58|reflexivity]]. eapply B58_self_trim; [apply chars_not_white|apply (address_B58 H)].
Qed.
Print Assumptions C48_roundtrip.
Lemma valid_iff H rs a : hash_ok H -> Forall (fun c => 0 <= c < 1114112) a ->
  (isValidPublicAddress H rs a = Ok true <-> zlen a = 34 /\ nth 0 a 0 = 65 /\ exists t p, trimmed white_ascii rs a t /\ B58Check H p t).
Proof.
  intros O P. unfold isValidPublicAddress.
  destruct ((zlen a =? 34) && (nth 0 a 0 =? 65)) eqn:C; [|split; [discriminate|lia]].
  assert (L34 : zlen a = 34 /\ nth 0 a 0 = 65) by lia. clear C.
  assert (K : (exists r, (do b <- utf8_encode a; b58decode_check H rs (VBytes b)) = Ok r) <-> exists t p, trimmed white_ascii rs a t /\ B58Check H p t).
  { split.
    - intros [r E]. destruct (utf8_encode a) as [b|] eqn:U; [|discriminate]. cbn [rbind] in E. unfold b58decode_check in E.
      destruct (b58decode rs (VBytes b)) as [d|] eqn:D; [|discriminate]. cbn [rbind] in E. destruct (list_eq_dec _ _ _) as [Ck|]; [|discriminate].
      destruct (split_checksum H d O) as [S1 _]. apply S1 in Ck. destruct Ck as [p ->]. apply decode_bytes_iff in D. destruct D as (t & T & B).
      exists t, p. split; [|exact B].
      (* the encoded bytes are ASCII, so they are the text itself *)
      assert (A : Forall (fun c => 0 <= c < 128) (map b2z b)).
      { pose proof (B58_chars _ _ B) as BC. assert (Ft : Forall (fun c => 0 <= c < 128) t) by (eapply Forall_impl; [|exact BC]; intros c Hc; apply b58_chars_facts, Hc).
        destruct rs; cbn in T; [|subst t; exact Ft]. destruct T as (h & -> & Fh & _). apply Forall_app. split; [exact Ft|]. eapply Forall_impl; [|exact Fh]. unfold white_ascii. cbn. lia. }
      assert (map b2z b = a) as <-; [|exact T].
      unfold utf8_encode in U. destruct (existsb is_surrogate a); [discriminate|]. assert (b = utf8_chars a) as -> by congruence. clear -A P.
      induction P as [|c a Hc Ha IH]; [reflexivity|]. cbn [utf8_chars map] in *. rewrite map_app in *. apply Forall_app in A. destruct A as [A1 A2]. rewrite (IH A2).
      unfold utf8_char in *. destruct (c <? 128) eqn:C1; [cbn; f_equal; apply z2b_small; lia|].
      exfalso. destruct (c <? 2048) eqn:C2; [|destruct (c <? 65536) eqn:C3]; cbn [map] in A1; pose proof (Forall_inv A1) as X; cbn beta in X; rewrite z2b_small in X; lia.
    - intros (t & p & T & B). assert (A : Forall (fun c => 0 <= c < 128) a).
      { pose proof (B58_chars _ _ B) as BC. assert (Ft : Forall (fun c => 0 <= c < 128) t) by (eapply Forall_impl; [|exact BC]; intros c Hc; apply b58_chars_facts, Hc).
        destruct rs; cbn in T; [|subst t; exact Ft]. destruct T as (h & -> & Fh & _). apply Forall_app. split; [exact Ft|]. eapply Forall_impl; [|exact Fh]. unfold white_ascii. cbn. lia. }
      rewrite utf8_ascii by exact A. cbn [rbind]. unfold b58decode_check.
      assert (D : b58decode rs (VBytes (map z2b a)) = Ok (p ++ checksum H p)).
      { apply decode_bytes_iff. exists t. rewrite map_b2z_z2b; [auto|]. eapply Forall_impl; [|exact A]. cbn; lia. }
      rewrite D. cbn [rbind]. destruct (list_eq_dec _ _ _) as [|N]; [eauto|]. exfalso. apply N. apply (split_checksum H _ O). eauto. }
  destruct (do b <- utf8_encode a; b58decode_check H rs (VBytes b)) as [r|e] eqn:E.
  - split; [intros _|reflexivity]. split; [tauto|]. split; [tauto|]. apply K. eauto.
  - split; [destruct (is_ValueError e); discriminate|]. intros (_ & _ & X). apply K in X. destruct X as [r X]. discriminate.
Qed.
Theorem C48_accepted : forall H rs u, hash_ok H -> length (u_data u) = 20%nat -> isValidPublicAddress H rs (ToAddress H u) = Ok true.
Proof.
  intros H rs u O L. destruct (C48_shape H u O L) as (A & B & C). apply valid_iff; [exact O| |].
  - eapply Forall_impl; [|exact C]. intros c Hc. apply b58_chars_facts in Hc. lia.
  - split; [exact A|]. split; [exact B|]. exists (ToAddress H u), (z2b 23 :: u_data u). split; [|apply address_B58]. eapply B58_self_trim; [apply chars_not_white_ascii|apply (address_B58 H)].
Qed.
Print Assumptions C48_accepted.
Theorem C48_injective : forall H u v, hash_ok H -> ToAddress H u = ToAddress H v -> u_data u = u_data v.
Proof. intros H u v O E. pose proof (C48_roundtrip H true u O) as R. rewrite E, C48_roundtrip in R by exact O. congruence. Qed.
Print Assumptions C48_injective.
Example C48_example : hash_ok real_hashes /\
  (do u <- UInt160_ParseString (str "787fd27778fd8eb197fc47d1db9b2fa067f9ec79"); Ok (ToAddress real_hashes u)) = Ok (str "AStZHy8E6StCqYQbzMqi4poH7YNDHQKxvt").
Proof. split; [exact real_hashes_ok|vm_compute; reflexivity]. Qed.

(** ** C49 What address_to_scripthash accepts *)
Theorem C49_accepts : forall H rs a h, hash_ok H -> Forall (fun c => 0 <= c) a ->
  (cli_address_to_scripthash H rs a = Ok h <-> exists t p, trimmed white rs a t /\ B58Check H p t /\ h = skipn 1 p).
Proof. exact cli_accepts. Qed.
Print Assumptions C49_accepts.
(** any version byte and any payload is accepted *)
Theorem C49_any_version_and_length : forall H rs version payload, hash_ok H -> exists a,
  B58Check H (version :: payload) a /\ cli_address_to_scripthash H rs a = Ok payload.
Proof.
  intros H rs ver p O. pose proof (encode_B58 ((ver :: p) ++ checksum H (ver :: p))) as B. eexists. split; [exact B|].
  apply cli_accepts; [exact O| |].
  - eapply Forall_impl; [|eapply B58_chars; exact B]. intros c Hc. apply b58_chars_facts in Hc. lia.
  - eexists _, (ver :: p). split; [|split; [exact B|reflexivity]]. eapply B58_self_trim; [apply chars_not_white|exact B].
Qed.
Print Assumptions C49_any_version_and_length.
(** the only failures; ValueError, UnicodeError and IndexError are not turned into ConversionError *)
Theorem C49_failures : forall H rs a e, hash_ok H -> cli_address_to_scripthash H rs a = Raise e ->
  (e = ConversionError /\ exists d, b58decode rs (VStr a) = Ok d /\ forall p, d <> p ++ checksum H p) \/
  (e = IndexError /\ b58decode rs (VStr a) = Ok []) \/
  ((e = ValueError \/ e = UnicodeError) /\ b58decode rs (VStr a) = Raise e).
Proof.
  intros H rs a e O E. unfold cli_address_to_scripthash in E. destruct (decode_str_fail rs a) as [[d D]|(x & D & X)]; rewrite D in E |- *; cbn [rbind] in E.
  - destruct d as [|x r]; [right; left; split; [cbn in E; congruence|reflexivity]|]. destruct (list_eq_dec _ _ _) as [|N]; [discriminate|].
    left. split; [congruence|]. eexists. split; [reflexivity|]. intros p Ep. apply N. apply (split_checksum H _ O). eauto.
  - right. right. assert (e = x) as -> by congruence. auto.
Qed.
Print Assumptions C49_failures.
Example C49_example : cli_address_to_scripthash real_hashes false (str "AStZHy8E6StCqYQbzMqi4poH7YNDHQKxvt") =
    unhexlify (VStr (str "79ecf967a02f9bdbd147fc97b18efd7877d27f78")) /\
  cli_address_to_scripthash real_hashes false (str "") = Raise IndexError /\
  cli_address_to_scripthash real_hashes false (str "0") = Raise ValueError /\
  cli_address_to_scripthash real_hashes false (str "AStZHy8E6StCqYQbzMqi4poH7YNDHQKxvu") = Raise ConversionError.
Proof. repeat split; vm_compute; reflexivity. Qed.

(** ** C50 What isValidPublicAddress accepts *)
Theorem C50_iff : forall H rs a, hash_ok H -> Forall (fun c => 0 <= c < 1114112) a ->
  (isValidPublicAddress H rs a = Ok true <-> zlen a = 34 /\ nth 0 a 0 = 65 /\ exists t p, trimmed white_ascii rs a t /\ B58Check H p t).
Proof. exact valid_iff. Qed.
Print Assumptions C50_iff.
(** it never raises, whatever the text *)
Theorem C50_total : forall H rs a, exists v, isValidPublicAddress H rs a = Ok v.
Proof.
  intros H rs a. unfold isValidPublicAddress. destruct (_ && _); [|eauto]. unfold utf8_encode. destruct (existsb _ _); cbn [rbind]; [cbn; eauto|].
  unfold b58decode_check. destruct (decode_bytes_fail rs (utf8_chars a)) as [[d D]|D]; rewrite D; cbn [rbind]; [|cbn; eauto].
  destruct (list_eq_dec _ _ _); cbn; eauto.
Qed.
Print Assumptions C50_total.
(** an accepted text of 34 Base58 characters carries 21 bytes whose first is 22, 23 or 24 *)
Theorem C50_version_bytes : forall H a p, hash_ok H -> zlen a = 34 -> nth 0 a 0 = 65 -> B58Check H p a ->
  exists v rest, p = v :: rest /\ length rest = 20%nat /\ (b2z v = 22 \/ b2z v = 23 \/ b2z v = 24).
Proof.
  intros H a p O L A B. pose proof B as B0. unfold B58Check in B. destruct B as (k & w & ds & Ed & Hw & Et & Hd & F & V).
  destruct k as [|k]; [|exfalso; rewrite Et in A; cbn in A; lia]. cbn [repeat app] in *. subst a.
  destruct ds as [|d ds]; [cbn in L; lia|]. cbn [map nth] in A. pose proof (Forall_inv F) as Fd. pose proof (Forall_inv_tail F) as Fds. cbn beta in Fd.
  assert (d = 9). { rewrite b58_char_alpha in A by exact Fd. assert (alpha d = alpha 9) as X by (apply b2z_inj; rewrite A; reflexivity). pose proof (alpha_index_alpha d Fd) as I. rewrite X, alpha_index_alpha in I by lia. congruence. }
  subst d. rewrite zlen_map, zlen_cons in L. rewrite !horner_val in V. cbn [rev] in V. rewrite val_app, zlen_rev in V. cbn [val] in V.
  replace (zlen ds) with 33 in V by lia. pose proof (val_bounds 58 (rev ds) ltac:(lia) ltac:(apply Forall_rev, Fds)) as Bd. rewrite zlen_rev in Bd. replace (zlen ds) with 33 in Bd by lia.
  assert (N : 9 * 58 ^ 33 <= val 256 (rev (map b2z w)) < 10 * 58 ^ 33) by lia.
  assert (Nw : forall r, w <> x00 :: r) by (exact (proj1 (hd_ne x01 x00 w ltac:(discriminate)) Hw)).
  assert (Lw : zlen w = 25).
  { pose proof (bytes_digits w Nw) as BD. rewrite le2z_val, map_rev in BD. assert (X : zlen (divmod_digits 256 (val 256 (rev (map b2z w)))) = 25).
    { apply digits_length; [lia|lia|]. assert (256 ^ (25 - 1) <= 9 * 58 ^ 33 /\ 10 * 58 ^ 33 <= 256 ^ 25) by (vm_compute; split; discriminate). lia. }
    rewrite BD in X. rewrite zlen_rev, zlen_map in X. exact X. }
  destruct w as [|v r]; [cbn in Lw; lia|]. rewrite zlen_cons in Lw.
  assert (M : val 256 (rev (map b2z (v :: r))) = b2z v * 256 ^ zlen r + le2z (rev r)) by (rewrite <- horner_val; apply horner_cons).
  rewrite M in N. replace (zlen r) with 24 in N by lia. pose proof (le2z_bound (rev r)) as Br. rewrite zlen_rev in Br. replace (zlen r) with 24 in Br by lia.
  assert (Lc : length (checksum H p) = 4%nat) by (destruct O as [O1 _]; unfold checksum; rewrite firstn_length, O1; reflexivity).
  destruct p as [|v' p']; [exfalso; cbn [app] in Ed; apply (f_equal zlen) in Ed; rewrite zlen_cons in Ed; unfold zlen in *; rewrite Lc in Ed; lia|].
  cbn [app] in Ed. assert (v' = v) by congruence. subst v'. exists v, p'. split; [reflexivity|].
  assert (r = p' ++ checksum H (v :: p')) as Er by congruence. apply (f_equal zlen) in Er. rewrite zlen_app in Er. unfold zlen in Er. rewrite Lc in Er. split; [unfold zlen in Lw; lia|].
  assert (C : 22 * 256 ^ 24 < 9 * 58 ^ 33 /\ 10 * 58 ^ 33 < 25 * 256 ^ 24) by (vm_compute; split; reflexivity). lia.
Qed.
Print Assumptions C50_version_bytes.
(** ... and 22 and 24 do occur, for every hash function *)
Theorem C50_wrong_versions_accepted : forall H rs, hash_ok H -> exists a22 a24 p22 p24,
  isValidPublicAddress H rs a22 = Ok true /\ B58Check H (x16 :: p22) a22 /\
  isValidPublicAddress H rs a24 = Ok true /\ B58Check H (x18 :: p24) a24.
Proof.
  intros H rs O. assert (G : forall v p, length p = 20%nat -> 9 * 58 ^ 33 <= b2z v * 256 ^ 24 + le2z (rev p) * 256 ^ 4 ->
     b2z v * 256 ^ 24 + (le2z (rev p) + 1) * 256 ^ 4 <= 10 * 58 ^ 33 -> b2z v <> 0 ->
     exists a, isValidPublicAddress H rs a = Ok true /\ B58Check H (v :: p) a).
  { intros v p L Lo Hi Nz. pose proof (encode_B58 ((v :: p) ++ checksum H (v :: p))) as B. eexists. split; [|exact B].
    set (a := ascii_decode _) in *. set (ck := checksum H (v :: p)) in *. assert (Lc : zlen ck = 4) by (destruct O as [O1 _]; unfold ck, zlen, checksum; rewrite firstn_length, O1; reflexivity).
    assert (Sh : zlen a = 34 /\ nth 0 a 0 = b58_char 9).
    { apply (B58_first v (p ++ ck)); [exact Nz|exact B|lia|lia|]. rewrite horner_cons, rev_app_distr, le2z_app, zlen_rev, zlen_app, Lc. unfold zlen. rewrite L.
      pose proof (le2z_bound (rev ck)) as Bc. rewrite zlen_rev, Lc in Bc. change (Z.of_nat 20 + 4) with 24. change (34 - 1) with 33. change (9 + 1) with 10. lia. }
    apply valid_iff; [exact O| |].
    - eapply Forall_impl; [|eapply B58_chars; exact B]. intros c Hc. apply b58_chars_facts in Hc. lia.
    - split; [tauto|]. split; [tauto|]. exists a, (v :: p). split; [|exact B]. eapply B58_self_trim; [apply chars_not_white_ascii|exact B]. }
  destruct (G x16 (repeat xff 20) eq_refl ltac:(vm_compute; discriminate) ltac:(vm_compute; discriminate) ltac:(vm_compute; discriminate)) as (a & A & B).
  destruct (G x18 (repeat x00 20) eq_refl ltac:(vm_compute; discriminate) ltac:(vm_compute; discriminate) ltac:(vm_compute; discriminate)) as (a' & A' & B').
  exists a, a', (repeat xff 20), (repeat x00 20). auto.
Qed.
Print Assumptions C50_wrong_versions_accepted.
Example C50_example : isValidPublicAddress real_hashes true (str "AStZHy8E6StCqYQbzMqi4poH7YNDHQKxvt") = Ok true /\
  isValidPublicAddress real_hashes true (str "BStZHy8E6StCqYQbzMqi4poH7YNDHQKxvt") = Ok false /\
  isValidPublicAddress real_hashes true (str "AStZHy8E6StCqYQbzMqi4poH7YNDHQKxvu") = Ok false /\
  isValidPublicAddress real_hashes false [] = Ok false.
Proof. repeat split; vm_compute; reflexivity. Qed.

(** ** C72 Command line conversions are inverse *)
Lemma hex_not_0x b r : hex b <> str "0x" ++ r.
Proof.
  destruct b as [|x b]; [discriminate|]. cbn. intros E. injection E as _ E _. pose proof (b2z_range x).
  pose proof (hexdigit_range (b2z x mod 16)). unfold hexdigit in *. destruct (b2z x mod 16 <? 10) eqn:C; lia.
Qed.

(** the two spellings of a script hash: 0x + big-endian hex, and bare little-endian hex *)
Theorem C72_roundtrip : forall H rs h, hash_ok H -> length h = 20%nat -> exists a,
  cli_scripthash_to_address H (str "0x" ++ hex (rev h)) = Ok a /\
  cli_scripthash_to_address H (hex h) = Ok a /\
  cli_address_to_scripthash H rs a = Ok h.
Proof.
  intros H rs h O L. set (u := mkUInt CUInt160 h (num LE (firstn 4 h))).
  assert (U : is_UInt160 u) by (repeat split; exact L).
  exists (ToAddress H u). destruct (roundtrip160 u U) as [_ R]. unfold To0xString, ToString in R. cbn [u_data u] in R. repeat split.
  - unfold cli_scripthash_to_address. destruct (list_eq_dec _ _ _) as [_|N]; [|exfalso; apply N; reflexivity]. cbn [rbind]. rewrite R. reflexivity.
  - unfold cli_scripthash_to_address. destruct (list_eq_dec _ _ _) as [E|_].
    + exfalso. apply (hex_not_0x h (skipn 2 (hex h))). rewrite <- E. symmetry. apply firstn_skipn.
    + rewrite unhexlify_hex_str. cbn [rbind]. rewrite R. reflexivity.
  - apply (C48_roundtrip H rs u O).
Qed.
Print Assumptions C72_roundtrip.
(** exactly the 40-digit texts, with or without the prefix, are accepted; the only exception is ConversionError *)
Theorem C72_accepts : forall H s, (exists a, cli_scripthash_to_address H s = Ok a) <->
  exists t, (s = str "0x" ++ t \/ s = t) /\ length t = 40%nat /\ Forall hex_char t.
Proof.
  intros H s. assert (HC : forall t, Forall hex_char t <-> Forall hex_digit_code t).
  { intros t. split; intros F; (eapply Forall_impl; [|exact F]); unfold hex_char, hex_digit_code; intros c Hc; lia. }
  assert (Conv : forall t : pystr, firstn 2 t = str "0x" -> t = str "0x" ++ skipn 2 t) by (intros t E; rewrite <- E; symmetry; apply firstn_skipn).
  unfold cli_scripthash_to_address. split.
  - intros [a E]. destruct (list_eq_dec Z.eq_dec (firstn 2 s) (str "0x")) as [P|P].
    + cbn [rbind] in E. destruct (UInt160_ParseString s) as [u|] eqn:U; [|discriminate]. apply parse160 in U. destruct U as (t & T & Lt & F & _).
      exists t. rewrite HC. split; [|auto]. destruct T as [T|[T _]]; auto.
    + destruct (unhexlify (VStr s)) as [b|] eqn:X; [|discriminate]. cbn [rbind] in E. destruct (UInt160_ParseString (str "0x" ++ hex (rev b))) as [u|] eqn:U; [|discriminate].
      apply parse160 in U. destruct U as (t & T & Lt & F & _). destruct T as [T|[_ T]]; [|exfalso; apply (T _ eq_refl)].
      apply app_inv_head in T. exists s. split; [auto|]. cbn [unhexlify] in X. destruct (forallb _ s); [|discriminate]. destruct (unhex_codes s) as [b'|] eqn:C; [|discriminate].
      assert (b' = b) as -> by congruence. split.
      * apply unhex_codes_len in C. apply (f_equal (@length Z)) in T. rewrite hex_length, rev_length in T. lia.
      * apply HC. apply (hex_text_iff s). eauto.
  - intros (t & T & Lt & F). apply HC in F. assert (X : hex_text t) by (split; [exists 20%nat; lia|exact F]).
    destruct (proj1 (hex_text_iff t) X) as [d Hd]. pose proof (unhex_codes_len _ _ Hd) as Ld.
    destruct (list_eq_dec Z.eq_dec (firstn 2 s) (str "0x")) as [P|P].
    + assert (T' : s = str "0x" ++ t).
      { destruct T as [T|T]; [exact T|]. subst s. exfalso. apply Conv in P. rewrite P in F. pose proof (Forall_inv (Forall_inv_tail F)) as Fx. cbn in Fx. unfold hex_char, hex_digit_code in Fx. lia. }
      cbn [rbind]. destruct (UInt160_ParseString s) as [u|e] eqn:U; [cbn; eauto|]. exfalso.
      assert (U2 : UInt160_ParseString s = Ok (mkUInt CUInt160 (rev d) (num LE (firstn 4 (rev d))))); [|congruence].
      apply parse160. exists t. split; [left; exact T'|]. split; [exact Lt|]. split; [exact F|]. split; [repeat split; cbn; rewrite rev_length; lia|].
      unfold ToString. cbn [u_data]. rewrite rev_involutive. symmetry. apply unhex_denotes, Hd.
    + assert (s = t) as ->. { destruct T as [T|T]; [|exact T]. subst s. exfalso. apply P. reflexivity. }
      cbn [unhexlify]. assert (forallb (fun c => c <? 128) t = true) as ->.
      { apply forallb_forall. intros c Hc. rewrite Forall_forall in F. specialize (F c Hc). unfold hex_char, hex_digit_code in F. lia. }
      rewrite Hd. cbn [rbind]. set (u := mkUInt CUInt160 d (num LE (firstn 4 d))). assert (U : is_UInt160 u) by (repeat split; cbn; lia).
      destruct (roundtrip160 u U) as [_ R]. unfold To0xString, ToString in R. cbn [u_data u] in R. rewrite R. cbn. eauto.
Qed.
Print Assumptions C72_accepts.
(** which address: the Base58Check of 23 and the hash; digits of either case, big-endian after 0x, little-endian otherwise *)
Theorem C72_value : forall H t h, length h = 20%nat -> exists a, B58Check H (x17 :: h) a /\
  (hex_denotes t (rev h) -> cli_scripthash_to_address H (str "0x" ++ t) = Ok a) /\
  (hex_denotes t h -> cli_scripthash_to_address H t = Ok a).
Proof.
  intros H t h L. exists (scripthash_to_address H h). split; [apply address_B58|]. set (u := mkUInt CUInt160 h (num LE (firstn 4 h))).
  assert (U : is_UInt160 u) by (repeat split; exact L). assert (A : ToAddress H u = scripthash_to_address H h) by reflexivity. split; intros D.
  - unfold cli_scripthash_to_address. destruct (list_eq_dec _ _ _) as [_|N]; [|exfalso; apply N; reflexivity]. cbn [rbind].
    assert (UInt160_ParseString (str "0x" ++ t) = Ok u) as ->; [|cbn [rbind]; rewrite A; reflexivity].
    apply parse160. exists t. split; [left; reflexivity|]. split; [rewrite (hex_denotes_length _ _ D), rev_length, L; reflexivity|]. split; [apply (hex_denotes_text _ _ D)|].
    split; [exact U|]. unfold hex_denotes in D. rewrite D. reflexivity.
  - unfold cli_scripthash_to_address. destruct (list_eq_dec _ _ _) as [E|_].
    + exfalso. assert (F : Forall hex_digit_code t) by apply (hex_denotes_text _ _ D). destruct t as [|c0 [|c1 t]]; cbn [firstn] in E; try discriminate. assert (c1 = 120) as -> by (change (str "0x") with [48; 120] in E; congruence).
      apply Forall_inv_tail, Forall_inv in F. unfold hex_digit_code in F. lia.
    + unfold unhexlify. rewrite (hex_text_ascii _ (hex_denotes_text _ _ D)), (proj2 (unhex_denotes _ _) D). cbn [rbind].
      destruct (roundtrip160 u U) as [_ R]. unfold To0xString, ToString in R. cbn [u_data u] in R. rewrite R. reflexivity.
Qed.
Print Assumptions C72_value.
Theorem C72_only_ConversionError : forall H s e, cli_scripthash_to_address H s = Raise e -> e = ConversionError.
Proof. intros H s e. unfold cli_scripthash_to_address. match goal with |- context [match ?x with _ => _ end] => destruct x end; congruence. Qed.
Print Assumptions C72_only_ConversionError.
Example C72_example :
  cli_scripthash_to_address real_hashes (str "0xe9eed8dc39332032dc22e5d6e86332c50327ba23") = Ok (str "AK2nJJpJr6o664CWJKi1QRXjqeic2zRp8y") /\
  cli_scripthash_to_address real_hashes (str "23ba2703c53263e8d6e522dc32203339dcd8eee9") = Ok (str "AK2nJJpJr6o664CWJKi1QRXjqeic2zRp8y") /\
  cli_scripthash_to_address real_hashes (str "0xe9eed8dc39332032dc22e5d6e86332c50327baxx") = Raise ConversionError.
Proof. repeat split; vm_compute; reflexivity. Qed.
