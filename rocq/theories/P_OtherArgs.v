(** * P_OtherArgs: C120 (pass phrases, addresses, signatures and keys of other types) *)
From Coq Require Import ZArith Lia ZifyBool List String.
From Verif Require Import M_Py M_Hash M_Base58 M_UInt M_Helper M_ECCurve M_KeyPair M_Crypto M_OtherArgs.
From Verif Require Import L_Bytes L_IO L_Hex L_Crypto S_IO S_IO2 S_EC S_Address S_KeyPair S_Crypto P_Helper P_KeyPair P_Crypto.
Import ListNotations.
Open Scope Z_scope.

Definition is_text (v : pyval) : Prop := exists s, v = VStr s.

(** ** pass phrases *)
(** A pass phrase that is a text is treated as before. *)
Theorem C120_text_passphrase : forall H L rs kp x pass,
  ExportNEP2_any H L kp (VStr pass) = ExportNEP2 H L kp pass /\ PrivateKeyFromNEP2_any H L rs x (VStr pass) = PrivateKeyFromNEP2 H L rs x pass.
Proof. intros H L rs kp x pass. split; reflexivity. Qed.
Print Assumptions C120_text_passphrase.
(** Any other never exports a key: ValueError for fewer than two bytes, otherwise TypeError, unless the
    key has no address, which comes first. *)
Theorem C120_export : forall H L kp v, ~ is_text v ->
  (forall b, v = VBytes b \/ v = VBytearray b -> List.length b < 2 -> ExportNEP2_any H L kp v = Raise ValueError)%nat /\
  (forall b a, v = VBytes b \/ v = VBytearray b -> (2 <= List.length b)%nat -> GetAddress H kp = Ok a -> ExportNEP2_any H L kp v = Raise TypeError) /\
  (forall b e, v = VBytes b \/ v = VBytearray b -> (2 <= List.length b)%nat -> GetAddress H kp = Raise e -> ExportNEP2_any H L kp v = Raise e) /\
  ((forall b, v <> VBytes b /\ v <> VBytearray b) -> ExportNEP2_any H L kp v = Raise TypeError).
Proof.
  intros H L kp v N.
  assert (A : forall a, GetAddress H kp = Ok a -> exists ah, address_hash H a = Ok ah).
  { intros a G. eexists. apply address_hash_ok, (GetAddress_chars H kp a G). }
  split; [|split; [|split]].
  - intros b [-> | ->] B; unfold ExportNEP2_any; cbn [py_len rbind]; replace (zlen b <? 2) with true by (unfold zlen; lia); reflexivity.
  - intros b a [-> | ->] B G; destruct (A a G) as [ah E]; unfold ExportNEP2_any; cbn [py_len rbind];
      replace (zlen b <? 2) with false by (unfold zlen; lia); rewrite G; cbn [rbind]; rewrite E; reflexivity.
  - intros b e [-> | ->] B G; unfold ExportNEP2_any; cbn [py_len rbind]; replace (zlen b <? 2) with false by (unfold zlen; lia); rewrite G; reflexivity.
  - intros B. destruct v as [b|b|s|z|b|z| |]; try reflexivity; [destruct (B b); congruence|destruct (B b); congruence|]. destruct N. eexists. reflexivity.
Qed.
Print Assumptions C120_export.
(** An import with such a pass phrase fails as with every other pass phrase (if the text itself is
    unacceptable), or with a TypeError: a text that some pass phrase opens is refused with TypeError. *)
Theorem C120_import : forall H L rs x v, ~ is_text v ->
  (exists e, PrivateKeyFromNEP2_any H L rs x v = Raise e /\ (e = TypeError \/ forall pass, PrivateKeyFromNEP2 H L rs x pass = Raise e)) /\
  (forall pass k, PrivateKeyFromNEP2 H L rs x pass = Ok k -> PrivateKeyFromNEP2_any H L rs x v = Raise TypeError).
Proof.
  intros H L rs x v N.
  assert (K : PrivateKeyFromNEP2_any H L rs x v = Raise TypeError \/ exists e, PrivateKeyFromNEP2_any H L rs x v = Raise e /\ forall pass, PrivateKeyFromNEP2 H L rs x pass = Raise e).
  { unfold PrivateKeyFromNEP2_any, PrivateKeyFromNEP2. destruct (negb (truthy x)).
    { right. destruct (py_len x) as [n|e]; eexists; split; reflexivity. }
    destruct (py_len x) as [n|e]; [|right; eexists; split; reflexivity]. cbn [rbind].
    destruct (negb (n =? 58)); [right; eexists; split; reflexivity|].
    destruct (b58decode_check H rs x) as [d|e]; [|right; eexists; split; reflexivity]. cbn [rbind].
    left. destruct v as [b|b|s|z|b|z| |]; try reflexivity. destruct N. eexists. reflexivity. }
  split.
  - destruct K as [K|(e & K & A)]; [exists TypeError|exists e]; auto.
  - intros pass k E. destruct K as [K|(e & _ & A)]; [exact K|]. rewrite A in E. discriminate.
Qed.
Print Assumptions C120_import.

(** ** addresses *)
(** an address given as bytes is never valid, whatever it says; None and numbers raise *)
Theorem C120_address : forall H rs v,
  (forall s, v = VStr s -> isValidPublicAddress_any H rs v = isValidPublicAddress H rs s) /\
  (forall b, v = VBytes b \/ v = VBytearray b -> isValidPublicAddress_any H rs v = Ok false) /\
  (~ is_text v -> (forall b, v <> VBytes b /\ v <> VBytearray b) -> isValidPublicAddress_any H rs v = Raise TypeError).
Proof.
  intros H rs v. split; [|split].
  - intros s ->. reflexivity.
  - intros b [-> | ->]; reflexivity.
  - intros N B. destruct v as [b|b|s|z|b|z| |]; try reflexivity; [destruct (B b); congruence|destruct (B b); congruence|]. destruct N. eexists. reflexivity.
Qed.
Print Assumptions C120_address.

(** ** signatures and keys *)
(** bytes and bytearrays, and points: as in C74 *)
Theorem C120_bytes : forall S v u w sg sg' key key', bytes_arg sg sg' -> bytes_arg key key' -> forall P,
  wVerifySignature_any S v sg (AKVal key) u w = wVerifySignature S v sg' (KBytes key') u w /\
  wVerifySignature_any S v sg (AKPoint P) u w = wVerifySignature S v sg' (KPoint P) u w.
Proof.
  intros S v u w sg sg' key key' Bs Bk P. unfold wVerifySignature_any, wVerifySignature.
  assert (As : as_bytes sg = Ok sg') by (destruct Bs; reflexivity). rewrite As.
  split; f_equal.
  - destruct Bk as [b|b]; cbn [rbind py_len];
      (destruct (if u then _ else _) as [m|e]; [|reflexivity]); cbn [rbind];
      destruct (zlen b =? 33); [destruct (bitcoin_decompress (w_curve w) b) as [k|e]; [|reflexivity]| |destruct (bitcoin_decompress (w_curve w) b) as [k|e]; [|reflexivity]|]; cbn [rbind as_bytes];
      (destruct m; reflexivity).
  - destruct (int_to_bytes BE false 32 (fst P)) as [x|e]; [|reflexivity]. cbn [rbind]. destruct (int_to_bytes BE false 32 (snd P)) as [y|e]; [|reflexivity]. cbn [rbind py_len].
    destruct (if u then _ else _) as [m|e]; [|reflexivity]. cbn [rbind]. destruct (zlen (x ++ y) =? 33); [destruct (bitcoin_decompress (w_curve w) (x ++ y)) as [k|e]; [|reflexivity]|]; cbn [rbind as_bytes];
      (destruct m; reflexivity).
Qed.
Print Assumptions C120_bytes.
(** A signature that is not bytes -- hexadecimal text, for instance -- is rejected, never reported; only
    what is raised for every signature is raised for it. *)
Theorem C120_signature : forall S v u w sg key, (forall b, ~ bytes_arg sg b) ->
  wVerifySignature_any S v sg key u w = (Ok false, w) \/
  exists e, wVerifySignature_any S v sg key u w = (Raise e, w) /\ forall sg', wVerifySignature_any S v sg' key u w = (Raise e, w).
Proof.
  intros S v u w sg key N. unfold wVerifySignature_any.
  assert (As : exists e, as_bytes sg = Raise e) by (destruct sg as [b|b|s|z|b|z| |]; try (eexists; reflexivity); exfalso; apply (N b); constructor). destruct As as [es As]. rewrite As.
  destruct (match key with AKPoint P => _ | AKVal k => _ end) as [k|e]; [|right; exists e; split; reflexivity]. cbn [rbind].
  destruct (if u then _ else _) as [m|e]; [|right; exists e; split; reflexivity]. cbn [rbind].
  destruct (py_len k) as [n|e]; [|right; exists e; split; reflexivity]. cbn [rbind].
  destruct (if n =? 33 then _ else _) as [k'|e]; [|right; exists e; split; reflexivity]. cbn [rbind].
  left. f_equal. destruct (as_bytes k') as [kb|e]; [|reflexivity]. cbn [rbind]. destruct (as_bytes m) as [mb|e]; reflexivity.
Qed.
Print Assumptions C120_signature.
(** a message that UTF-8 cannot encode raises first *)
Definition encodable (v : pyval) (u : bool) : Prop := forall s, u = false -> v = VStr s -> exists b, utf8_encode s = Ok b.
(** A public key given as a text -- in hexadecimal, for instance -- is rejected whatever the signature, except
    that 33 characters raise a plain Exception; None, numbers and the like raise TypeError. *)
Theorem C120_key : forall S v u w sg, encodable v u ->
  (forall t, List.length t <> 33%nat -> wVerifySignature_any S v sg (AKVal (VStr t)) u w = (Ok false, w)) /\
  (forall t, List.length t = 33%nat -> wVerifySignature_any S v sg (AKVal (VStr t)) u w = (Raise PlainException, w)) /\
  (forall k, ~ is_text k -> (forall b, ~ bytes_arg k b) -> wVerifySignature_any S v sg (AKVal k) u w = (Raise TypeError, w)).
Proof.
  intros S v u w sg En.
  assert (M : exists m, (if u then match unhexlify v with Ok m => Ok (VBytes m) | Raise _ => Ok v end
     else match v with VStr s => do b <- utf8_encode s; Ok (VBytes b) | v => Ok v end) = Ok m).
  { destruct u; [destruct (unhexlify v); eexists; reflexivity|]. destruct v as [b|b|s|z|b|z| |]; try (eexists; reflexivity). destruct (En s eq_refl eq_refl) as [b ->]. eexists. reflexivity. }
  destruct M as [m M]. unfold wVerifySignature_any. cbn [rbind]. rewrite M. cbn [rbind].
  split; [|split].
  - intros t L. cbn [py_len rbind]. replace (zlen t =? 33) with false by (unfold zlen; lia). reflexivity.
  - intros t L. cbn [py_len rbind]. replace (zlen t =? 33) with true by (unfold zlen; lia). reflexivity.
  - intros k T B. destruct k as [b|b|s|z|b|z| |]; try reflexivity; [destruct (B b); constructor|destruct (B b); constructor|destruct T; eexists; reflexivity].
Qed.
Print Assumptions C120_key.
(** The hexadecimal forms of a signature and of a key that are accepted as bytes; the pass phrase ab as bytes *)
Example C120_example :
  let w := mkWorld setup_curve true in
  let m := VBytes (hexlify (repeat x41 32)) in
  exists sg, fst (wSign id_hashes toy_sigs m VNone w) = Ok sg /\
  wVerifySignature_any toy_sigs m (VBytearray sg) (AKVal (VBytearray toy_key)) true w = (Ok true, w) /\
  wVerifySignature_any toy_sigs m (VStr (hex sg)) (AKVal (VBytes toy_key)) true w = (Ok false, w) /\
  wVerifySignature_any toy_sigs m (VBytes sg) (AKVal (VStr (hex toy_key))) true w = (Ok false, w) /\
  wVerifySignature_any toy_sigs m (VBytes sg) (AKVal VNone) true w = (Raise TypeError, w) /\ encodable m true /\
  (do kp <- new_KeyPair id_hashes toy (VBytes key1); ExportNEP2_any id_hashes toy kp (VBytes [x61; x62])) = Raise TypeError /\
  (do kp <- new_KeyPair id_hashes toy (VBytes key1); rmap (fun _ => tt) (ExportNEP2_any id_hashes toy kp (VStr [97; 98]))) = Ok tt /\
  (do kp <- new_KeyPair id_hashes toy (VBytes key1); do t <- ExportNEP2 id_hashes toy kp [97; 98]; PrivateKeyFromNEP2_any id_hashes toy true (VStr t) (VBytes [x61; x62])) = Raise TypeError.
Proof.
  exists (repeat x41 32 ++ repeat x00 31 ++ [x01]). repeat (split; [first [vm_compute; reflexivity | intros s D; discriminate D]|]). vm_compute. reflexivity.
Qed.
Print Assumptions C120_example.
