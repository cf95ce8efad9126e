(** * P_Crypto: C74, C80, C81 (the shared curve, signing and verifying) *)
From Coq Require Import ZArith Znumtheory Lia List Setoid String.
From Verif Require Import M_Py M_Hash M_Base58 M_UInt M_Helper M_ECCurve M_KeyPair M_Crypto.
From Verif Require Import L_Bytes L_IO L_Hex L_Fermat L_Prime L_Field L_EC L_EC2 L_EC3 L_Crypto S_IO S_IO2 S_EC S_Address S_KeyPair S_Crypto P_Helper P_KeyPair.
Import ListNotations.
Open Scope Z_scope.

(** ** C80 the curve shared by the whole process *)
Lemma setup_is : is_secp256r1 setup_curve.
Proof. unfold is_secp256r1, setup_curve.  repeat split; vm_compute; reflexivity. Qed.
Lemma r1_unique c c' : is_secp256r1 c -> is_secp256r1 c' -> c = c'.
Proof. destruct c as [p n a b x y], c' as [p' n' a' b' x' y']. unfold is_secp256r1. cbn [cp_p cp_a cp_b cp_gx cp_gy cp_n]. intros (-> & -> & -> & -> & -> & ->) (-> & -> & -> & -> & -> & ->). reflexivity. Qed.
Lemma r1_setup c : is_secp256r1 c -> c = setup_curve.
Proof. intros H. apply r1_unique; [exact H|exact setup_is]. Qed.
Lemma setup_good : goodp setup_curve.
Proof.
  split; [|split; [vm_compute; reflexivity|vm_compute; reflexivity]].
  replace (cp_p setup_curve) with p256 by (vm_compute; reflexivity). exact prime_p256.
Qed.
Lemma setup_same : cp_p setup_curve = c_p secp256r1 /\ cp_a setup_curve = c_a secp256r1 /\ cp_b setup_curve = c_b secp256r1 /\ (cp_gx setup_curve, cp_gy setup_curve) = G256.
Proof. split; [vm_compute; reflexivity|]. split; [vm_compute; reflexivity|]. split; vm_compute; reflexivity. Qed.
Lemma setup_base : equation (cp_p setup_curve) (cp_a setup_curve) (cp_b setup_curve) (cp_gx setup_curve) (cp_gy setup_curve).
Proof. unfold equation. rewrite same_cong. apply cong_iff; [vm_compute; reflexivity|]. vm_compute. reflexivity. Qed.
(** KeyPair and Crypto select the same curve, which is P-256, the curve of ECDSA.secp256r1() *)
Theorem C80_constants :
  is_secp256r1 setup_curve /\ is_secp256r1 SetupSignatureCurve /\
  prime (cp_p setup_curve) /\
  equation (cp_p setup_curve) (cp_a setup_curve) (cp_b setup_curve) (cp_gx setup_curve) (cp_gy setup_curve) /\
  (c_p secp256r1, c_a secp256r1, c_b secp256r1, G256) =
    (cp_p setup_curve, cp_a setup_curve, cp_b setup_curve, (cp_gx setup_curve, cp_gy setup_curve)).
Proof.
  split; [exact setup_is|]. split; [unfold is_secp256r1, SetupSignatureCurve;  repeat split; vm_compute; reflexivity|].
  split; [apply setup_good|]. split; [exact setup_base|]. destruct setup_same as (-> & -> & -> & ->). reflexivity.
Qed.
Print Assumptions C80_constants.
Lemma sig_is : is_secp256r1 SetupSignatureCurve. Proof. exact (proj1 (proj2 C80_constants)). Qed.
Lemma default_is : is_secp256k1 bitcoin_default. Proof. split; [reflexivity|split; reflexivity]. Qed.

Lemma wbind_pure {A B} (r : res A) (f : A -> W B) w : wbind (wpure r) f w = match r with Ok a => f a w | Raise e => (Raise e, w) end.
Proof. destruct r; reflexivity. Qed.
(** what the state after one call is *)
Lemma after_selects H L rs S k w : selects H L rs k -> (w_instance w = true -> w_curve w = setup_curve) -> w_curve (after_call H L rs S k w) = setup_curve.
Proof.
  intros K I. assert (D : w_curve (snd (wDefault w)) = setup_curve). { unfold wDefault. destruct (w_instance w) eqn:E; [exact (I eq_refl)|]. apply r1_setup, sig_is. }
  destruct K as [v|kp| |m k|m s k u|v pass payload pwd dec key Lv Dv U derived A X]; cbn [after_call]; try reflexivity; try exact D.
  - unfold wExport, wbind. destruct (wDefault w) as [[] w'] eqn:E; [|exact D]. exact D.
  - unfold wbind. destruct (wDefault w) as [[] w'] eqn:E; exact D.
  - unfold wbind. destruct (wDefault w) as [[] w'] eqn:E; exact D.
  - unfold wPrivateKeyFromNEP2. rewrite wbind_pure. replace (truthy v) with true.
    2:{ destruct v; cbn [py_len] in Lv; try discriminate; cbn [truthy]; match goal with |- context [match ?x with [] => _ | _ :: _ => _ end] => destruct x end; try reflexivity; discriminate. }
    cbn [negb]. rewrite Lv. cbn [rbind]. change (negb (58 =? 58)) with false. cbv iota. rewrite Dv. cbn [rbind]. rewrite U. cbn [rbind]. fold derived. rewrite A. cbn [rbind].
    destruct X as (X1 & X2 & X3). destruct (C46_xor dec (firstn 32 derived) (eq_sym X1)) as (key' & Ek & _). rewrite Ek. cbn [rbind].
    unfold wbind at 1. unfold wKeyPair, wbind, change_curve, wpure. cbn [fst snd]. destruct (new_KeyPair _ _ _); reflexivity.
Qed.
Lemma after_other H L rs S k w : ~ selects H L rs k -> after_call H L rs S k w = w.
Proof.
  intros N. destruct k; cbn [after_call]; try (exfalso; apply N; constructor; fail); try reflexivity.
  unfold wPrivateKeyFromNEP2. rewrite wbind_pure.
  match goal with |- snd (match ?r with _ => _ end) = _ => destruct r as [a|e] eqn:E; [|reflexivity] end. exfalso. apply N. clear N.
  destruct (truthy nep2_key); cbn [negb] in E; [|destruct (py_len nep2_key); discriminate].
  destruct (py_len nep2_key) as [n|] eqn:Ln; [|discriminate]. cbn [rbind] in E. destruct (Z.eqb_spec n 58) as [->|]; cbn [negb] in E; [|discriminate].
  destruct (b58decode_check H rs nep2_key) as [payload|] eqn:D; [|discriminate]. cbn [rbind] in E. destruct (utf8_encode (nfc L passphrase)) as [pwd|] eqn:U; [|discriminate]. cbn [rbind] in E.
  destruct (aes_decrypt L _ _) as [dec|] eqn:A; [|discriminate]. cbn [rbind] in E. destruct (xor_bytes _ _) as [key|] eqn:X; [|discriminate].
  assert (Len : length dec = length (firstn 32 (scrypt_hash L pwd (slice 3 7 payload)))).
  { cbn [xor_bytes] in X. destruct (zlen dec =? _) eqn:Z; [|discriminate]. unfold zlen in Z. lia. }
  destruct (C46_xor _ _ Len) as (key' & X' & L1 & L2). assert (key' = key) as -> by congruence.
  apply (sel_import H L rs nep2_key passphrase payload pwd dec key); try assumption. split; [congruence|]. split; assumption.
Qed.
Lemma instance_inv H L rs S k w : (w_instance w = true -> w_curve w = setup_curve) -> w_instance (after_call H L rs S k w) = true -> w_curve (after_call H L rs S k w) = setup_curve.
Proof.
  intros I. assert (D : w_curve (snd (wDefault w)) = setup_curve). { unfold wDefault. destruct (w_instance w) eqn:E; [exact (I eq_refl)|]. apply r1_setup, sig_is. }
  destruct k; cbn [after_call]; try reflexivity; try (intros _; exact D); try exact I.
  - intros _. unfold wExport, wbind. destruct (wDefault w) as [[] w'] eqn:E; exact D.
  - unfold wPrivateKeyFromNEP2. rewrite wbind_pure. match goal with |- context [match ?r with _ => _ end] => destruct r end; [|exact I].
    intros _. unfold wbind at 1. unfold wKeyPair, wbind, change_curve, wpure. cbn [fst snd]. destruct (new_KeyPair _ _ _); reflexivity.
  - intros _. unfold wbind. destruct (wDefault w) as [[] w'] eqn:E; exact D.
  - intros _. unfold wbind. destruct (wDefault w) as [[] w'] eqn:E; exact D.
Qed.
Lemma selects_keeps H L rs S k w : w_curve w = setup_curve -> w_curve (after_call H L rs S k w) = setup_curve.
Proof.
  intros E. assert (D : w_curve (snd (wDefault w)) = setup_curve). { unfold wDefault. destruct (w_instance w); [exact E|]. apply r1_setup, sig_is. }
  destruct k; cbn [after_call]; try reflexivity; try exact D; try exact E.
  - unfold wExport, wbind. destruct (wDefault w) as [[] w'] eqn:E'; exact D.
  - unfold wPrivateKeyFromNEP2. rewrite wbind_pure. match goal with |- context [match ?r with _ => _ end] => destruct r end; [|exact E].
    unfold wbind at 1. unfold wKeyPair, wbind, change_curve, wpure. cbn [fst snd]. destruct (new_KeyPair _ _ _); reflexivity.
  - unfold wbind. destruct (wDefault w) as [[] w'] eqn:E'; exact D.
  - unfold wbind. destruct (wDefault w) as [[] w'] eqn:E'; exact D.
Qed.
(** In a process that has only used this package: the curve that static Crypto.Sign and
    Crypto.VerifySignature will use next is P-256 exactly when some earlier call selected it;
    otherwise it is still Bitcoin's. *)
Theorem C80_history : forall H L rs S history,
  (Exists (selects H L rs) history -> is_secp256r1 (w_curve (after H L rs S history fresh))) /\
  (Forall (fun k => ~ selects H L rs k) history -> after H L rs S history fresh = fresh /\ is_secp256k1 (w_curve fresh)).
Proof.
  intros H L rs S history. split.
  - intros E. cut (w_curve (after H L rs S history fresh) = setup_curve); [intros ->; exact setup_is|].
    assert (I : w_instance fresh = true -> w_curve fresh = setup_curve) by discriminate. revert E I. generalize fresh as w.
    induction history as [|k h IH]; intros w E I; [inversion E|]. unfold after in *. cbn [fold_left].
    inversion E as [? ? K|? ? K]; subst.
    + assert (C : w_curve (after_call H L rs S k w) = setup_curve) by (apply after_selects; assumption). clear - C. revert C. generalize (after_call H L rs S k w) as v.
      induction h as [|k' h IH]; intros v C; [exact C|]. cbn [fold_left]. apply IH. apply selects_keeps, C.
    + apply IH; [exact K|]. apply instance_inv, I.
  - intros F. split; [|exact default_is]. unfold after. generalize fresh as w. induction F as [|k h N F IH]; intros w; [reflexivity|]. cbn [fold_left]. rewrite after_other by exact N. apply IH.
Qed.
Print Assumptions C80_history.
(** the import written over the shared state returns what PrivateKeyFromNEP2 returns *)
Theorem C80_import_result : forall H L rs v pass w, fst (wPrivateKeyFromNEP2 H L rs v pass w) = PrivateKeyFromNEP2 H L rs v pass.
Proof.
  intros. unfold wPrivateKeyFromNEP2, PrivateKeyFromNEP2. rewrite wbind_pure. destruct (truthy v); cbn [negb]; [|destruct (py_len v); reflexivity].
  destruct (py_len v) as [n|]; [|reflexivity]. cbn [rbind]. destruct (n =? 58); cbn [negb]; [|reflexivity].
  change (length NEP_FLAG + length NEP_HEADER)%nat with 3%nat. change (3 + 4)%nat with 7%nat.
  destruct (b58decode_check H rs v) as [d|]; [|reflexivity]. cbn [rbind]. destruct (utf8_encode _) as [p|]; [|reflexivity]. cbn [rbind].
  destruct (aes_decrypt _ _ _) as [dec|]; [|reflexivity]. cbn [rbind]. destruct (xor_bytes _ _) as [k|]; [|reflexivity]. cbn [rbind].
  unfold wbind, wKeyPair, wbind, change_curve, wpure. cbn [fst snd]. destruct (new_KeyPair H L (VBytes k)); reflexivity.
Qed.
Print Assumptions C80_import_result.

(** ** C74 *)
Lemma signed_value v u m : signed_bytes v u m ->
  exists v', (if u then match unhexlify v with Ok m => Ok (VBytes m) | Raise _ => Ok v end
      else match v with VStr s => do b <- utf8_encode s; Ok (VBytes b) | v => Ok v end) = Ok v' /\ (v' = VBytes m \/ v' = VBytearray m).
Proof.
  destruct 1 as [v t m [] Hx|t m Hx|v t [] N|v t []|t m U].
  - unfold unhexlify. rewrite (proj2 (unhex_denotes _ _) Hx). eauto.
  - unfold unhexlify. rewrite (proj2 (unhex_denotes _ _) Hx). eauto.
  - unfold unhexlify. rewrite hex_text_ascii by (eapply hex_denotes_text; exact Hx). rewrite (proj2 (unhex_denotes _ _) Hx). eauto.
  - unfold unhexlify. rewrite (not_hex_text _ N). eauto.
  - unfold unhexlify. rewrite (not_hex_text _ N). eauto.
  - eauto.
  - eauto.
  - rewrite U. cbn [rbind]. eauto.
Qed.
(** the outcome in terms of the message value and the key handed to the ecdsa package *)
Definition msg_value (v : pyval) (u : bool) : res pyval :=
  if u then match unhexlify v with Ok m => Ok (VBytes m) | Raise _ => Ok v end
  else match v with VStr s => do b <- utf8_encode s; Ok (VBytes b) | v => Ok v end.
Definition finish (S : siglib) (key signature : bytes) (v : pyval) : res bool :=
  match (do m <- match v with VBytes m | VBytearray m => Ok m | _ => Raise TypeError end; nist_verify S key signature m) with
  | Ok r => Ok r | Raise _ => Ok false end.
Definition key_bytes (c : curve_params) (key : bytes) : res bytes :=
  if zlen key =? 33 then do k <- bitcoin_decompress c key; Ok (skipn 1 k) else Ok key.
Definition arg_bytes (a : key_arg) : res bytes :=
  match a with
  | KPoint P => do x <- int_to_bytes BE false 32 (fst P); do y <- int_to_bytes BE false 32 (snd P); Ok (x ++ y)
  | KBytes b => Ok b end.
Lemma verify_eq S v sg k u w : wVerifySignature S v sg k u w =
  (do key <- arg_bytes k; do m <- msg_value v u; do key <- key_bytes (w_curve w) key; finish S key sg m, w).
Proof. reflexivity. Qed.
Lemma finish_verdict S key sg m b v : v = VBytes m \/ v = VBytearray m -> verdict S key sg m b -> finish S key sg v = Ok b.
Proof. intros E [V|[[e V] ->]]; unfold finish; destruct E as [-> | ->]; cbn [rbind]; rewrite V; reflexivity. Qed.
Lemma finish_total S key sg v : exists b, finish S key sg v = Ok b.
Proof. unfold finish. destruct (rbind _ _); eauto. Qed.
Lemma key_bytes_other c key : length key <> 33%nat -> key_bytes c key = Ok key.
Proof. intros N. unfold key_bytes. destruct (zlen key =? 33) eqn:E; [|reflexivity]. unfold zlen in E. lia. Qed.

(** bytes that are not 33 long are handed over as they are, in any state: the outcome is the
    verdict of the ecdsa package, and nothing is raised *)
Theorem C74_verdict : forall S w v u m signature key b, signed_bytes v u m -> length key <> 33%nat ->
  verdict S key signature m b -> wVerifySignature S v signature (KBytes key) u w = (Ok b, w).
Proof.
  intros S w v u m sg key b M N V. rewrite verify_eq. cbn [arg_bytes rbind]. destruct (signed_value v u m M) as (v' & E & K). fold (msg_value v u) in E. rewrite E. cbn [rbind].
  rewrite key_bytes_other by exact N. cbn [rbind]. f_equal. exact (finish_verdict S key sg m b v' K V).
Qed.
Print Assumptions C74_verdict.
(** an ECPoint is handed over as its two 32-byte coordinates *)
Theorem C74_point : forall S w v u signature x y xb yb, be32 x xb -> be32 y yb ->
  wVerifySignature S v signature (KPoint (x, y)) u w = wVerifySignature S v signature (KBytes (xb ++ yb)) u w.
Proof.
  intros S w v u sg x y xb yb X Y. rewrite !verify_eq. cbn [arg_bytes fst snd]. rewrite (to_bytes_be32 x xb X), (to_bytes_be32 y yb Y). reflexivity.
Qed.
Print Assumptions C74_point.
Lemma decompress_r1 w x y enc xb yb : is_secp256r1 (w_curve w) -> canonical (cp_p (w_curve w)) (x, y) ->
  equation (cp_p (w_curve w)) (cp_a (w_curve w)) (cp_b (w_curve w)) x y -> compressed_key x y enc -> be32 x xb -> be32 y yb ->
  key_bytes (w_curve w) enc = Ok (xb ++ yb).
Proof.
  intros C. rewrite (r1_setup _ C). intros K E (xb' & B & ->) X Y. rewrite (be32_inj _ _ _ B X) in *. clear B.
  unfold key_bytes. unfold zlen. cbn [length]. rewrite (proj1 X). change (Z.of_nat 33 =? 33) with true. cbv iota.
  rewrite (bd_eq _ _ _ x) by (first [exact X|destruct (Z.even y); tauto]). cbn [rbind skipn]. do 2 f_equal.
  rewrite (bd_y_point setup_curve _ x y); [apply (be32_z y yb Y)|exact setup_good|exact K|exact E| |reflexivity].
  destruct setup_same as (Ep & Ea & Eb & _). rewrite Ep, Ea, Eb in E. exact (r1_y_nonzero x y E).
Qed.
(** once P-256 is selected, the 33-byte key of a point of the curve gives the same outcome *)
Theorem C74_compressed : forall S w v u signature x y enc xb yb, is_secp256r1 (w_curve w) ->
  canonical (cp_p (w_curve w)) (x, y) -> equation (cp_p (w_curve w)) (cp_a (w_curve w)) (cp_b (w_curve w)) x y ->
  compressed_key x y enc -> be32 x xb -> be32 y yb ->
  wVerifySignature S v signature (KBytes enc) u w = wVerifySignature S v signature (KBytes (xb ++ yb)) u w /\
  wVerifySignature S v signature (KBytes enc) u w = wVerifySignature S v signature (KPoint (x, y)) u w.
Proof.
  intros S w v u sg x y enc xb yb C K E Ce X Y. rewrite (C74_point S w v u sg x y xb yb X Y). cut (wVerifySignature S v sg (KBytes enc) u w = wVerifySignature S v sg (KBytes (xb ++ yb)) u w); [tauto|].
  rewrite !verify_eq. cbn [arg_bytes rbind]. rewrite (decompress_r1 w x y enc xb yb C K E Ce X Y).
  rewrite (key_bytes_other (w_curve w) (xb ++ yb)); [reflexivity|]. rewrite app_length, (proj1 X), (proj1 Y). discriminate.
Qed.
Print Assumptions C74_compressed.
(** a 33-byte key whose x belongs to no point is rejected, never reported *)
Theorem C74_no_such_point : forall S w v u m signature f x xb, is_secp256r1 (w_curve w) -> rejects_foreign_keys S ->
  signed_bytes v u m -> f = x02 \/ f = x03 -> be32 x xb ->
  (forall y, ~ equation (cp_p (w_curve w)) (cp_a (w_curve w)) (cp_b (w_curve w)) x y) ->
  wVerifySignature S v signature (KBytes (f :: xb)) u w = (Ok false, w).
Proof.
  intros S w v u m sg f x xb C R M F X N. rewrite verify_eq. cbn [arg_bytes rbind]. destruct (signed_value v u m M) as (v' & E & K). fold (msg_value v u) in E. rewrite E. cbn [rbind].
  unfold key_bytes, zlen. cbn [length]. rewrite (proj1 X). change (Z.of_nat 33 =? 33) with true. cbv iota. rewrite (bd_eq _ _ _ x X F). cbn [rbind skipn]. f_equal.
  set (key := xb ++ _). destruct (nist_verify S key sg m) as [[|]|e] eqn:V; [exfalso| |].
  - destruct (R _ _ _ V) as (c & x' & y' & xb' & yb' & C' & X' & Y' & Ek & Eq). rewrite (r1_unique _ _ C' C) in Eq.
    assert (Exb : xb = xb'). { unfold key in Ek. apply (f_equal (firstn 32)) in Ek. rewrite !firstn_app, (proj1 X), (proj1 X'), Nat.sub_diag, !firstn_O, !app_nil_r, !firstn_all2 in Ek by (rewrite ?(proj1 X), ?(proj1 X'); lia). exact Ek. }
    destruct X as [_ <-], X' as [_ <-]. subst xb'. exact (N y' Eq).
  - apply (finish_verdict S key sg m false v' K). left. exact V.
  - apply (finish_verdict S key sg m false v' K). right. eauto.
Qed.
Print Assumptions C74_no_such_point.
(** a message that stands for no bytes is rejected: text that is not hexadecimal, other types *)
Theorem C74_not_bytes : forall S w v u signature key, length key <> 33%nat -> (forall m, ~ signed_bytes v u m) ->
  (u = false -> forall s, v <> VStr s) -> wVerifySignature S v signature (KBytes key) u w = (Ok false, w).
Proof.
  intros S w v u sg key Lk N T. rewrite verify_eq. cbn [arg_bytes rbind]. rewrite key_bytes_other by exact Lk. cbn [rbind]. f_equal.
  assert (Nb : forall t, ~ bytes_arg v t). { intros t B. destruct u; [|exact (N t (sb_raw v t B))]. destruct (hex_text_dec (map b2z t)) as [Hx|Hx]; [|exact (N t (sb_not_hex v t B Hx))]. apply hex_text_denotes in Hx as (d & Hd & _). exact (N d (sb_hex v t d B Hd)). }
  assert (Mv : exists v', msg_value v u = Ok v' /\ forall t, v' <> VBytes t /\ v' <> VBytearray t).
  { exists v. split.
    - unfold msg_value. destruct u.
      + destruct (unhexlify v) as [m|e] eqn:E; [|reflexivity]. exfalso. destruct v as [b|b|s| | | | | ]; cbn [unhexlify] in E; try discriminate; try (eapply Nb; constructor; fail).
        destruct (forallb _ s); [|discriminate]. destruct (unhex_codes s) as [d|] eqn:Ed; [|discriminate]. apply unhex_denotes in Ed. exact (N d (sb_hex_text s d Ed)).
      + destruct v; try reflexivity. exfalso. exact (T eq_refl _ eq_refl).
    - intros t. split; intros ->; eapply Nb; constructor. }
  destruct Mv as (v' & -> & B). cbn [rbind]. unfold finish. destruct v'; try reflexivity; exfalso; [exact (proj1 (B _) eq_refl)|exact (proj2 (B _) eq_refl)].
Qed.
Print Assumptions C74_not_bytes.
(** the only exceptions: a coordinate that does not fit 32 bytes, text that UTF-8 cannot
    encode (with unhex=False), and 33 bytes that do not start with 02 or 03 *)
Theorem C74_exceptions : forall S w v u signature k e, fst (wVerifySignature S v signature k u w) = Raise e <->
  (exists x y, k = KPoint (x, y) /\ ~ (0 <= x < 2 ^ 256 /\ 0 <= y < 2 ^ 256) /\ e = OverflowError) \/
  ((forall x y, k = KPoint (x, y) -> 0 <= x < 2 ^ 256 /\ 0 <= y < 2 ^ 256) /\
   ((exists s, u = false /\ v = VStr s /\ utf8_encode s = Raise e) \/
    ((forall s, u = false -> v = VStr s -> exists b, utf8_encode s = Ok b) /\
     exists f xb, k = KBytes (f :: xb) /\ length xb = 32%nat /\ f <> x02 /\ f <> x03 /\ e = PlainException))).
Proof.
  intros S w v u sg k e. rewrite verify_eq. cbn [fst].
  assert (Mv : (exists e', msg_value v u = Raise e' /\ exists s, u = false /\ v = VStr s /\ utf8_encode s = Raise e') \/
               (exists v', msg_value v u = Ok v' /\ forall s, u = false -> v = VStr s -> exists b, utf8_encode s = Ok b)).
  { unfold msg_value. destruct u; [right; destruct (unhexlify v); (eexists; split; [reflexivity|discriminate])|].
    destruct v as [b|b|s| | | | | ]; try (right; eexists; split; [reflexivity|discriminate]). destruct (utf8_encode s) as [b|e'] eqn:E.
    - right. eexists. split; [reflexivity|]. intros s' _ Es. assert (s' = s) as -> by congruence. eauto.
    - left. eexists. split; [reflexivity|]. eauto. }
  assert (Kb : forall key, (exists key', key_bytes (w_curve w) key = Ok key' /\ forall f xb, key = f :: xb -> length xb = 32%nat -> f = x02 \/ f = x03) \/
      (key_bytes (w_curve w) key = Raise PlainException /\ exists f xb, key = f :: xb /\ length xb = 32%nat /\ f <> x02 /\ f <> x03)).
  { intros key. destruct (Nat.eq_dec (length key) 33) as [L|L].
    - destruct key as [|f xb]; [discriminate|]. assert (Lx : length xb = 32%nat) by (cbn [length] in L; lia). unfold key_bytes, zlen. rewrite L. change (Z.of_nat 33 =? 33) with true. cbv iota.
      cbn [bitcoin_decompress]. destruct (Z.eqb_spec (b2z f) 2) as [F2|F2]; cbn [orb].
      + left. eexists. split; [reflexivity|]. intros f' xb' Ef _. left. assert (f' = f) as -> by congruence. apply b2z_inj. exact F2.
      + destruct (Z.eqb_spec (b2z f) 3) as [F3|F3].
        * left. eexists. split; [reflexivity|]. intros f' xb' Ef _. right. assert (f' = f) as -> by congruence. apply b2z_inj. exact F3.
        * right. split; [reflexivity|]. exists f, xb. split; [reflexivity|]. split; [exact Lx|]. split; intros ->; [apply F2|apply F3]; reflexivity.
    - left. eexists. split; [apply key_bytes_other, L|]. intros f xb -> Lx. exfalso. apply L. cbn [length]. lia. }
  destruct k as [[x y]|key]; cbn [arg_bytes fst snd].
  - destruct (Z_le_dec 0 x) as [X0|X0]; [destruct (Z_lt_dec x (2 ^ 256)) as [X1|X1]|].
    1: destruct (Z_le_dec 0 y) as [Y0|Y0]; [destruct (Z_lt_dec y (2 ^ 256)) as [Y1|Y1]|].
    1: { pose proof (be32_z2bytes x ltac:(lia)) as BX. pose proof (be32_z2bytes y ltac:(lia)) as BY. rewrite (to_bytes_be32 _ _ BX), (to_bytes_be32 _ _ BY). cbn [rbind].
      destruct Mv as [(e' & Em & s & -> & -> & Es)|(v' & Em & Ev)]; rewrite Em; cbn [rbind].
      - split; [intros Er; right; split; [intros x' y' Ek; assert (x' = x /\ y' = y) as [-> ->] by (split; congruence); lia|]; left; exists s; split; [reflexivity|]; split; [reflexivity|]; congruence|].
        intros [(x' & y' & Ek & Nr & _)|(_ & [(s' & _ & Ev & Es')|(Ev & _)])]; [exfalso; apply Nr; assert (x' = x /\ y' = y) as [-> ->] by (split; congruence); lia|congruence|]. destruct (Ev s eq_refl eq_refl). congruence.
      - rewrite key_bytes_other by (rewrite app_length, (proj1 BX), (proj1 BY); discriminate). cbn [rbind]. destruct (finish_total S (z2bytes BE 32 x ++ z2bytes BE 32 y) sg v') as [b ->].
        split; [discriminate|]. intros [(x' & y' & Ek & Nr & _)|(_ & [(s' & Eu & Es & Es')|(_ & f & xb & Ek & _)])]; [exfalso; apply Nr; assert (x' = x /\ y' = y) as [-> ->] by (split; congruence); lia| |discriminate].
        destruct (Ev s' Eu Es). congruence. }
    all: assert (Nr : ~ (0 <= x < 2 ^ 256 /\ 0 <= y < 2 ^ 256)) by lia.
    all: assert (Ov : (do a <- int_to_bytes BE false 32 x; do b <- int_to_bytes BE false 32 y; Ok (a ++ b)) = Raise OverflowError)
      by (first [rewrite (to_bytes_overflow x) by lia; reflexivity | rewrite (to_bytes_be32 _ _ (be32_z2bytes x ltac:(lia))); cbn [rbind]; rewrite (to_bytes_overflow y) by lia; reflexivity]).
    all: rewrite Ov; cbn [rbind]; split; [intros Er; left; exists x, y; split; [reflexivity|]; split; [exact Nr|]; congruence|].
    all: intros [(x' & y' & _ & _ & ->)|(Nk & _)]; [reflexivity|exfalso; exact (Nr (Nk x y eq_refl))].
  - cbn [rbind]. destruct Mv as [(e' & Em & s & -> & -> & Es)|(v' & Em & Ev)]; rewrite Em; cbn [rbind].
    + split; [intros Er; right; split; [discriminate|]; left; exists s; split; [reflexivity|]; split; [reflexivity|]; congruence|].
      intros [(x' & y' & Ek & _)|(_ & [(s' & _ & Ev & Es')|(Ev & _)])]; [discriminate|congruence|]. destruct (Ev s eq_refl eq_refl). congruence.
    + destruct (Kb key) as [(key' & Ek & Fk)|(Ek & f & xb & -> & Lx & F2 & F3)]; rewrite Ek; cbn [rbind].
      * destruct (finish_total S key' sg v') as [b ->]. split; [discriminate|]. intros [(x' & y' & Eq & _)|(_ & [(s' & Eu & Es & Es')|(_ & f & xb & Eq & Lx & F2 & F3 & _)])]; [discriminate| |].
        -- destruct (Ev s' Eu Es). congruence.
        -- exfalso. assert (key = f :: xb) as -> by congruence. destruct (Fk f xb eq_refl Lx); auto.
      * split; [intros Er; right; split; [discriminate|]; right; split; [exact Ev|]; exists f, xb; repeat (split; [first [reflexivity|assumption]|]); congruence|].
        intros [(x' & y' & Eq & _)|(_ & [(s' & Eu & Es & Es')|(_ & f' & xb' & _ & _ & _ & _ & ->)])]; [discriminate| |reflexivity]. destruct (Ev s' Eu Es). congruence.
Qed.
Print Assumptions C74_exceptions.

(** ** C80: what goes wrong before P-256 is selected *)
Lemma default_good : goodp bitcoin_default.
Proof. split; [|split; [vm_compute; reflexivity|vm_compute; reflexivity]]. exact prime_p256k1. Qed.
Lemma app_inj {A} (a b c d : list A) : length a = length c -> a ++ b = c ++ d -> a = c /\ b = d.
Proof. revert c. induction a as [|x a IH]; intros [|y c] L E; try discriminate; [split; [reflexivity|exact E]|]. cbn in *. assert (x = y) as -> by congruence. destruct (IH c ltac:(lia) ltac:(congruence)) as [-> ->]. split; reflexivity. Qed.
Definition gx : Z := 0x6b17d1f2e12c4247f8bce6e563a440f277037d812deb33a0f4a13945d898c296.
Definition gy : Z := 0x4fe342e2fe1a7f9b8ee7eb4a7c0f9e162bce33576b315ececbb6406837bf51f5.
Lemma gy_candidates p q z g : prime p -> 0 <= z <= q -> q < 2 * p - g -> q < p + g -> 0 < g < p -> cong p (z * z) (g * g) -> z = g \/ z = p - g.
Proof.
  intros Hp R Q1 Q2 Rg E. destruct (sq_opp p z g Hp E) as [[k K]|[k K]].
  - left. assert (k = 0) by nia. subst k. lia.
  - right. assert (k = 1) by nia. subst k. lia.
Qed.
Lemma foreign_check : forallb (fun g => negb ((g * g - (gx * gx * gx + 7)) mod (2 ^ 256 - 2 ^ 32 - 977) =? 0) && negb ((g * g + (gx * gx * gx + 7)) mod (2 ^ 256 - 2 ^ 32 - 977) =? 0)) [gy; p256 - gy] = true.
Proof. vm_compute. reflexivity. Qed.
Lemma gbounds : 2 ^ 256 - 2 ^ 32 - 977 < 2 * p256 - gy /\ 2 ^ 256 - 2 ^ 32 - 977 < p256 + gy /\ 0 < gy < p256.
Proof. repeat split; vm_compute; reflexivity. Qed.
Lemma foreign_y z : 0 <= z <= 2 ^ 256 - 2 ^ 32 - 977 ->
  cong (2 ^ 256 - 2 ^ 32 - 977) (z * z) (gx * gx * gx + 7) \/ cong (2 ^ 256 - 2 ^ 32 - 977) (z * z) (- (gx * gx * gx + 7)) ->
  cong p256 (z * z) (gy * gy) -> False.
Proof.
  intros R S E. destruct gbounds as (B1 & B2 & B3). pose proof foreign_check as F. rewrite forallb_forall in F.
  assert (I : In z [gy; p256 - gy]). { destruct (gy_candidates p256 _ z gy prime_p256 R B1 B2 B3 E) as [-> | ->]; cbn [In]; tauto. }
  specialize (F z I). rewrite Bool.andb_true_iff, !Bool.negb_true_iff, !Z.eqb_neq in F. destruct F as [F1 F2]. destruct S as [S|S].
  - apply F1. apply Z.mod_divide; [discriminate|]. exact S.
  - apply F2. apply Z.mod_divide; [discriminate|]. replace (z * z + (gx * gx * gx + 7)) with (z * z - - (gx * gx * gx + 7)) by ring. exact S.
Qed.
(** If nothing has selected P-256 yet, no signature whatsoever verifies under the 33-byte key of
    the base point (the public key of the private key 1), for any ecdsa package that accepts
    only points of P-256; under the same key as an ECPoint the outcome is the package's verdict. *)
Theorem C80_wrong_curve : forall H L rs S history v u m signature enc b, rejects_foreign_keys S ->
  Forall (fun k => ~ selects H L rs k) history -> signed_bytes v u m -> compressed_key gx gy enc ->
  fst (wVerifySignature S v signature (KBytes enc) u (after H L rs S history fresh)) = Ok false /\
  (forall xb yb, be32 gx xb -> be32 gy yb -> verdict S (xb ++ yb) signature m b ->
     fst (wVerifySignature S v signature (KPoint (gx, gy)) u (after H L rs S history fresh)) = Ok b).
Proof.
  intros H L rs S h v u m sg enc b R F M (xb & X & ->). rewrite (proj1 (proj2 (C80_history H L rs S h) F)). split.
  2:{ intros xb' yb X' Y V. rewrite (C74_point S fresh v u sg gx gy xb' yb X' Y). rewrite (C74_verdict S fresh v u m sg (xb' ++ yb) b M); [reflexivity| |exact V]. rewrite app_length, (proj1 X'), (proj1 Y). discriminate. }
  rewrite verify_eq. cbn [arg_bytes rbind fst]. destruct (signed_value v u m M) as (v' & E & K). fold (msg_value v u) in E. rewrite E. cbn [rbind].
  set (f := if Z.even gy then x02 else x03). assert (Ff : f = x02 \/ f = x03) by (unfold f; destruct (Z.even gy); tauto). clearbody f.
  unfold key_bytes, zlen. cbn [length]. rewrite (proj1 X). change (Z.of_nat 33 =? 33) with true. cbv iota. rewrite (bd_eq _ _ _ gx X Ff). cbn [rbind skipn].
  change (w_curve fresh) with bitcoin_default. destruct (bd_y_spec bitcoin_default f gx default_good Ff) as (R1 & R2 & _ & _).
  set (z := bd_y bitcoin_default f gx) in *. clearbody z. change (cp_p bitcoin_default) with (2 ^ 256 - 2 ^ 32 - 977) in *. change (rhs bitcoin_default gx) with (gx * gx * gx + 0 * gx + 7) in R2.
  replace (gx * gx * gx + 0 * gx + 7) with (gx * gx * gx + 7) in R2 by ring.
  destruct (nist_verify S (xb ++ z2bytes BE 32 z) sg m) as [[|]|e] eqn:V; [exfalso| |].
  - destruct (R _ _ _ V) as (c & x' & y' & xb' & yb' & C' & X' & Y' & Ek & Eq). rewrite (r1_setup c C') in Eq.
    assert (Exb : xb = xb' /\ z2bytes BE 32 z = yb'). { apply app_inj; [rewrite (proj1 X), (proj1 X'); reflexivity|exact Ek]. }
    destruct Exb as [<- <-]. assert (x' = gx) as -> by (destruct X as [_ <-], X' as [_ <-]; reflexivity).
    assert (y' = z). { destruct Y' as [_ Yn]. assert (Rz : 0 <= z < 2 ^ 256) by lia. destruct (be32_z2bytes z Rz) as [_ Zn]. congruence. } subst y'.
    apply (foreign_y z R1 R2). pose proof setup_base as B. unfold equation in *. rewrite same_cong in *.
    change (cp_gx setup_curve) with gx in B. change (cp_gy setup_curve) with gy in B. change (cp_p setup_curve) with p256 in *. rewrite Eq. symmetry. exact B.
  - apply (finish_verdict S _ sg m false v' K). left. exact V.
  - apply (finish_verdict S _ sg m false v' K). right. eauto.
Qed.
Print Assumptions C80_wrong_curve.

(** ** C81 signing *)
(** the message of Sign is always hexadecimal; [signs_for] says which bytes it stands for *)
Definition signs_for (v : pyval) (m : bytes) : Prop :=
  (exists t, bytes_arg v t /\ hex_denotes (map b2z t) m) \/ (exists t, v = VStr t /\ hex_denotes t m).
Lemma signs_unhex v m : unhexlify v = Ok m <-> signs_for v m.
Proof.
  split.
  - intros E. destruct v as [b|b|s| | | | | ]; cbn [unhexlify] in E; try discriminate.
    + left. exists b. split; [constructor|]. apply unhex_denotes. destruct (unhex_codes _); congruence.
    + left. exists b. split; [constructor|]. apply unhex_denotes. destruct (unhex_codes _); congruence.
    + right. exists s. split; [reflexivity|]. destruct (forallb _ s); [|discriminate]. apply unhex_denotes. destruct (unhex_codes _); congruence.
  - intros [(t & [] & Hx)|(t & -> & Hx)]; unfold unhexlify; rewrite ?(hex_text_ascii t) by (eapply hex_denotes_text; exact Hx); rewrite (proj2 (unhex_denotes _ _) Hx); reflexivity.
Qed.
(** the signature is the two numbers of the library, 32 bytes each, for the SHA-256 of the
    bytes, under the curve selected at that moment *)
Theorem C81_signature : forall H S w v m key sig, fst (wSign H S v key w) = Ok sig ->
  signs_for v m ->
  length sig = 64%nat /\ exists i, raw_sign S (w_curve w) (sha256 H m) key = Ok (i, num_be (firstn 32 sig), num_be (skipn 32 sig)).
Proof.
  intros H S w v m key sg E M. apply signs_unhex in M. unfold wSign in E. cbn [fst] in E. rewrite M in E. cbn [rbind] in E.
  destruct (raw_sign S (w_curve w) (sha256 H m) key) as [[[i r] s]|]; [|discriminate]. cbn [rbind] in E.
  assert (R : forall z l, int_to_bytes BE false 32 z = Ok l -> be32 z l).
  { intros z l. unfold int_to_bytes. destruct (int_fits false 32 z) eqn:F; [|discriminate]. intros El. assert (l = z2bytes BE 32 z) as -> by congruence. apply be32_z2bytes.
    apply (int_fits_spec false 32 z ltac:(lia)) in F. cbn [int_min int_max] in F. change (256 ^ Z.of_nat 32) with (2 ^ 256) in F. lia. }
  destruct (int_to_bytes BE false 32 r) as [rb|] eqn:Er; [|discriminate]. cbn [rbind] in E. destruct (int_to_bytes BE false 32 s) as [sb|] eqn:Es; [|discriminate]. cbn [rbind] in E.
  apply R in Er as [Lr <-]. apply R in Es as [Ls <-]. assert (sg = rb ++ sb) as -> by congruence. split; [rewrite app_length, Lr, Ls; reflexivity|]. exists i.
  rewrite firstn_app, skipn_app, Lr, Nat.sub_diag, firstn_O, app_nil_r, firstn_all2, skipn_all2 by lia. reflexivity.
Qed.
Print Assumptions C81_signature.
Theorem C81_signs : forall H S w v m key i r s rb sb, signs_for v m -> raw_sign S (w_curve w) (sha256 H m) key = Ok (i, r, s) ->
  be32 r rb -> be32 s sb -> wSign H S v key w = (Ok (rb ++ sb), w).
Proof.
  intros H S w v m key i r s rb sb M R Br Bs. apply signs_unhex in M. unfold wSign. rewrite M. cbn [rbind]. rewrite R. cbn [rbind]. rewrite (to_bytes_be32 _ _ Br), (to_bytes_be32 _ _ Bs). reflexivity.
Qed.
Print Assumptions C81_signs.
(** unlike VerifySignature, Sign raises for a message that is not hexadecimal *)
Theorem C81_not_hex : forall H S w v key, (forall m, ~ signs_for v m) -> exists e, wSign H S v key w = (Raise e, w) /\ (is_ValueError e = true \/ e = TypeError).
Proof.
  intros H S w v key N. unfold wSign. destruct (unhexlify v) as [m|e] eqn:E; [exfalso; apply (N m), signs_unhex, E|]. exists e. split; [reflexivity|].
  destruct v as [b|b|s| | | | | ]; cbn [unhexlify] in E; try (right; congruence).
  1,2: destruct (unhex_codes _); [discriminate|]; assert (e = BinasciiError) as -> by congruence; left; reflexivity.
  destruct (forallb _ s); [destruct (unhex_codes _); [discriminate|]|]; left; [assert (e = BinasciiError) as -> by congruence|assert (e = ValueError) as -> by congruence]; reflexivity.
Qed.
Print Assumptions C81_not_hex.
(** Signing with the key of a KeyPair made before, and verifying under its PublicKey, its
    64-byte form or (if it is a point of P-256) its 33-byte form, gives the ecdsa package's
    verdict on the bitcoin package's signature, both for P-256 and for the same message bytes:
    nothing is lost on the way. *)
Theorem C81_sign_verify : forall H L S w w1 k kp f xb yb vm vm' u m key i r s sig b, hash_ok H -> length k = 32%nat ->
  privkey_to_pubkey L setup_curve k = Ok (f :: xb ++ yb) -> length xb = 32%nat -> length yb = 32%nat ->
  wKeyPair H L (VBytes k) w = (Ok kp, w1) ->
  signs_for vm m -> signed_bytes vm' u m ->
  raw_sign S setup_curve (sha256 H m) key = Ok (i, r, s) -> 0 <= r < 2 ^ 256 -> 0 <= s < 2 ^ 256 ->
  (forall rb sb, be32 r rb -> be32 s sb -> sig = rb ++ sb -> verdict S (xb ++ yb) sig m b) ->
  fst (wSign H S vm key w1) = Ok sig ->
  fst (wVerifySignature S vm' sig (KPoint (kp_PublicKey kp)) u w1) = Ok b /\
  fst (wVerifySignature S vm' sig (KBytes (xb ++ yb)) u w1) = Ok b /\
  (forall enc, let '(x, y) := kp_PublicKey kp in
     canonical (cp_p setup_curve) (x, y) -> equation (cp_p setup_curve) (cp_a setup_curve) (cp_b setup_curve) x y -> compressed_key x y enc ->
     fst (wVerifySignature S vm' sig (KBytes enc) u w1) = Ok b).
Proof.
  intros H L S w w1 k kp f xb yb vm vm' u m key i r s sg b O Lk P Lx Ly Kp M M' R Rr Rs V Sg.
  destruct (C71_private H L (VBytes k) k f xb yb O (bytes_b k) Lk P Lx Ly) as (uh & Ek & _).
  assert (Kp' : wKeyPair H L (VBytes k) w = (new_KeyPair H L (VBytes k), mkWorld setup_curve (w_instance w))) by reflexivity. rewrite Ek, Kp in Kp'.
  assert (w1 = mkWorld setup_curve (w_instance w)) as Ew by congruence. assert (kp_PublicKey kp = (num_be xb, num_be yb)) as Epk by (assert (kp = mkKeyPair k (num_be xb, num_be yb) uh) as -> by congruence; reflexivity). clear Kp' Kp Ek.
  assert (Cw : is_secp256r1 (w_curve w1)) by (rewrite Ew; exact setup_is). rewrite Epk.
  pose proof (be32_z2bytes r Rr) as Br. pose proof (be32_z2bytes s Rs) as Bs.
  assert (R' : raw_sign S (w_curve w1) (sha256 H m) key = Ok (i, r, s)) by (rewrite Ew; exact R). rewrite (C81_signs H S w1 vm m key i r s _ _ M R' Br Bs) in Sg. cbn [fst] in Sg.
  specialize (V _ _ Br Bs ltac:(congruence)).
  assert (X : be32 (num_be xb) xb) by (split; [exact Lx|reflexivity]). assert (Y : be32 (num_be yb) yb) by (split; [exact Ly|reflexivity]).
  assert (B64 : fst (wVerifySignature S vm' sg (KBytes (xb ++ yb)) u w1) = Ok b). { rewrite (C74_verdict S w1 vm' u m sg (xb ++ yb) b M'); [reflexivity| |exact V]. rewrite app_length, Lx, Ly. discriminate. }
  split; [rewrite (C74_point S w1 vm' u sg _ _ xb yb X Y); exact B64|]. split; [exact B64|].
  intros enc Cn Eq Ce. replace setup_curve with (w_curve w1) in Cn, Eq by (rewrite Ew; reflexivity).
  rewrite (proj1 (C74_compressed S w1 vm' u sg _ _ enc xb yb Cw Cn Eq Ce X Y)). exact B64.
Qed.
Print Assumptions C81_sign_verify.

(** ** concrete instances: a toy signature library which signs with the key 1 only and accepts
    exactly its own signatures under the base point *)
Definition toy_key : bytes := z2bytes BE 32 gx ++ z2bytes BE 32 gy.
Definition toy_sig (h : bytes) : Z * Z * Z := (27, num_be (firstn 32 h), 1).
Definition toy_sigs : siglib := mkSiglib
  (fun c h k => if cp_b c =? 7 then Ok (27, 0, 0) else Ok (toy_sig h))
  (fun key sg m => if list_eq_dec Byte.byte_eq_dec key toy_key then
      (if list_eq_dec Byte.byte_eq_dec sg (firstn 32 m ++ repeat x00 (64 - length (firstn 32 m) - 1) ++ [x01]) then Ok true else Raise PlainException) else Raise PlainException).
Lemma toy_sigs_ok : rejects_foreign_keys toy_sigs.
Proof.
  intros key sg m. unfold toy_sigs. cbn [nist_verify]. destruct (list_eq_dec _ key toy_key) as [->|]; [|discriminate]. intros _.
  exists setup_curve, gx, gy, (z2bytes BE 32 gx), (z2bytes BE 32 gy). split; [exact setup_is|].
  assert (Bx : 0 <= gx < 2 ^ 256) by (split; [discriminate|reflexivity]). assert (By : 0 <= gy < 2 ^ 256) by (split; [discriminate|reflexivity]).
  split; [apply be32_z2bytes, Bx|]. split; [apply be32_z2bytes, By|]. split; [reflexivity|exact setup_base].
Qed.
Definition id_hashes : hashes := mkHashes (fun m => firstn 32 (m ++ repeat x00 32)) (fun m => firstn 20 (m ++ repeat x00 20)).
Definition demo (first : list call) : res bool :=
  let w := after id_hashes toy true toy_sigs first fresh in
  let m := VStr (hex (repeat x41 32)) in
  do sg <- fst (wSign id_hashes toy_sigs m (VStr (hex key1)) w);
  fst (wVerifySignature toy_sigs m sg (KPoint (gx, gy)) true w).
(** the same program with and without an earlier Crypto.Default() or failing KeyPair(b'') *)
Example C80_example : demo [CallDefault] = Ok true /\ demo [CallKeyPair (VBytes [])] = Ok true /\
  demo [] = Ok false /\ demo [CallVerifySignature VNone [] (KBytes []) true] = Ok false /\ rejects_foreign_keys toy_sigs /\ Z.even gy = false.
Proof. do 4 (split; [vm_compute; reflexivity|]). split; [exact toy_sigs_ok|reflexivity]. Qed.
Example C74_example : exists w, is_secp256r1 (w_curve w) /\ compressed_key gx gy (x03 :: z2bytes BE 32 gx) /\
  fst (wVerifySignature toy_sigs (VStr (str "zz")) [] (KPoint (gx, gy)) true w) = Ok false /\
  fst (wVerifySignature toy_sigs (VStr (str "zz")) [] (KBytes (repeat x05 33)) true w) = Raise PlainException /\
  fst (wVerifySignature toy_sigs (VStr [55296]) [] (KPoint (gx, gy)) false w) = Raise UnicodeError /\
  fst (wVerifySignature toy_sigs (VStr []) [] (KPoint (-1, gy)) true w) = Raise OverflowError.
Proof.
  exists (mkWorld setup_curve true). split; [exact setup_is|]. split; [exists (z2bytes BE 32 gx); split; [apply be32_z2bytes; split; [discriminate|reflexivity]|reflexivity]|].
  repeat split; vm_compute; reflexivity.
Qed.
Example C81_example : fst (wSign id_hashes toy_sigs (VStr (hex (repeat x41 32))) VNone (mkWorld setup_curve true)) = Ok (repeat x41 32 ++ repeat x00 31 ++ [x01]) /\
  fst (wSign id_hashes toy_sigs (VStr (str "abc")) VNone fresh) = Raise BinasciiError.
Proof. split; vm_compute; reflexivity. Qed.
