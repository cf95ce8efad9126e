(** * L_IO2: strings, UInts, hashes and arrays on the stream *)
From Coq Require Import Lia ZifyBool ZifyNat ZifyN.
From Verif Require Import M_Py M_UInt M_Writer M_Reader S_IO S_IO2 L_Bytes L_IO L_VarInt L_Hex L_Utf8.
Ltac Zify.zify_post_hook ::= Z.div_mod_to_equations.

(** ** fixed width *)
Lemma int_roundtrip t e v : type_min t <= v <= type_max t ->
  exists enc, encodes t e v enc /\ writes (write_int t v e) (Z.of_nat (type_width t)) enc /\ reads (read_int t e) enc v.
Proof.
  intros H. exists (z2bytes e (type_width t) v). split; [apply encodes_z2bytes, H|].
  rewrite write_int_eq, read_int_eq. split; [apply pack_int_writes, type_fits, H|].
  apply pack_unpack; [apply type_width_pos|apply type_width_le|apply type_fits, H].
Qed.

Lemma int_refused t e v : ~ (type_min t <= v <= type_max t) -> refuses (write_int t v e) StructError.
Proof.
  intros H. rewrite write_int_eq. apply pack_int_refuses.
  destruct (int_fits (type_signed t) (type_width t) v) eqn:E; [|reflexivity]. apply type_fits in E. contradiction.
Qed.

Lemma int_read_any t e s : (type_width t <= length (remaining s))%nat ->
  exists v, type_min t <= v <= type_max t /\ encodes t e v (firstn (type_width t) (remaining s)) /\
            read_int t e s = (Ok v, advance (type_width t) s).
Proof.
  intros H. set (d := firstn (type_width t) (remaining s)).
  assert (Hd : length d = type_width t) by (apply firstn_length_le; exact H).
  exists (int_from_bytes e (type_signed t) d).
  assert (Hr : type_min t <= int_from_bytes e (type_signed t) d <= type_max t).
  { apply type_fits. rewrite <- Hd. apply int_from_bytes_fits. rewrite Hd. apply type_width_pos. }
  split; [exact Hr|]. split.
  - pose proof (encodes_z2bytes t e _ Hr) as He. rewrite <- Hd, z2bytes_int_from in He. exact He.
  - rewrite read_int_eq. rewrite (unpack_int_reads e (type_signed t) (type_width t) d (type_width_pos t) (type_width_le t) Hd s (skipn (type_width t) (remaining s))).
    + rewrite Hd. reflexivity.
    + symmetry. apply firstn_skipn.
Qed.

Lemma int_read_short t e s : (length (remaining s) < type_width t)%nat ->
  read_int t e s = (Raise StructError, advance (length (remaining s)) s).
Proof.
  intros H. rewrite read_int_eq. unfold unpack_int, ibind.
  pose proof (type_width_le t). rewrite bio_read_spec by (unfold maxsize; lia).
  rewrite Nat2Z.id, firstn_all2 by lia. unfold ilift, struct_unpack_int, zlen.
  replace (_ =? _) with false by lia. reflexivity.
Qed.

Lemma int_encodes_inj t e v a b : type_min t <= v <= type_max t -> encodes t e v a -> encodes t e v b -> a = b.
Proof. intros H Ha Hb. rewrite (encodes_unique _ _ _ _ Ha H), (encodes_unique _ _ _ _ Hb H). reflexivity. Qed.

(** ** payloads *)
Lemma maxsize_lt : maxsize < 2 ^ 64. Proof. reflexivity. Qed.

Lemma WriteVarBytes_writes b : zlen b <= maxsize ->
  writes (WriteVarBytes (VBytes b) LE) (zlen b) (varenc LE (zlen b) ++ b).
Proof.
  intros H. pose proof (zlen_nonneg b). pose proof maxsize_lt. unfold WriteVarBytes.
  eapply writes_lift; [reflexivity|]. eapply writes_bind; [apply WriteVarInt_writes; lia|]. apply WriteBytes_false.
Qed.

Lemma unpack_s_reads d : zlen d <= maxsize -> reads (unpack_s (zlen d)) d d.
Proof.
  intros H. eapply reads_lift; [apply bio_read_exact, H|]. unfold struct_unpack_s. rewrite Z.eqb_refl. reflexivity.
Qed.

Lemma var_bytes_ok b max : zlen b <= maxsize -> zlen b <= max -> exists p, varint LE (zlen b) p /\
  writes (WriteVarBytes (VBytes b) LE) (zlen b) (p ++ b) /\
  writes (WriteVarBytes (VBytearray b) LE) (zlen b) (p ++ b) /\
  reads (ReadVarBytes max) (p ++ b) b /\ reads (ReadVarString max) (p ++ b) b.
Proof.
  intros H Hm. pose proof (zlen_nonneg b). pose proof maxsize_lt.
  assert (Hv : varint LE (zlen b) (varenc LE (zlen b))) by (apply varenc_spec; lia).
  exists (varenc LE (zlen b)). split; [exact Hv|].
  split; [apply WriteVarBytes_writes, H|]. split; [apply (WriteVarBytes_writes b), H|].
  split; (eapply reads_bind; [apply ReadVarInt_reads; [exact Hv|lia]|]).
  - apply bio_read_exact, H.
  - apply unpack_s_reads, H.
Qed.

Lemma hexlify_str b : ascii_decode (hexlify b) = hex b.
Proof. apply hex_codes_byte. Qed.

Lemma WriteVarString_bytes b : zlen b <= maxsize -> exists p, varint LE (zlen b) p /\
  writes (WriteVarString (VBytes b)) tt (p ++ b) /\ writes (WriteVarString (VBytearray b)) tt (p ++ b).
Proof.
  intros H. pose proof (zlen_nonneg b). pose proof maxsize_lt.
  exists (varenc LE (zlen b)). split; [apply varenc_spec; lia|].
  split; unfold WriteVarString; (eapply writes_lift; [reflexivity|]); cbn [py_len];
    (eapply writes_lift; [reflexivity|]); rewrite hexlify_str;
    (eapply writes_bind; [apply WriteVarInt_writes; lia|]); eapply writes_seq_ret;
    apply WriteBytes_str_hex, hex_denotes_hex.
Qed.

Lemma WriteVarString_text s b max : utf8_decode b = Some s -> zlen b <= maxsize -> exists p, varint LE (zlen b) p /\
  writes (WriteVarString (VStr s)) tt (p ++ b) /\ (zlen b <= max -> reads (ReadVarString max) (p ++ b) b).
Proof.
  intros Hd H. apply utf8_decode_iff in Hd as [Hs Hb]. subst b. set (b := utf8_chars s) in *.
  pose proof (zlen_nonneg b). pose proof maxsize_lt.
  assert (Hv : varint LE (zlen b) (varenc LE (zlen b))) by (apply varenc_spec; lia).
  exists (varenc LE (zlen b)). split; [exact Hv|]. split.
  - unfold WriteVarString. rewrite utf8_encode_ok by exact Hs.
    eapply writes_lift; [reflexivity|]. cbn [py_len]. eapply writes_lift; [reflexivity|]. rewrite hexlify_str.
    eapply writes_bind; [apply WriteVarInt_writes; lia|]. eapply writes_seq_ret.
    apply WriteBytes_str_hex, hex_denotes_hex.
  - intros Hm. eapply reads_bind; [apply ReadVarInt_reads; [exact Hv|lia]|]. apply unpack_s_reads, H.
Qed.

Lemma WriteVarString_surrogate s : Forall code_point s -> ~ scalar_text s -> refuses (WriteVarString (VStr s)) UnicodeError.
Proof. intros H Hn. apply refuses_lift. rewrite utf8_encode_bad by assumption. reflexivity. Qed.

(** ** missing data *)
Lemma ReadBytes_any n s : 0 <= n <= maxsize ->
  ReadBytes n s = (Ok (firstn (Z.to_nat n) (remaining s)), advance (length (firstn (Z.to_nat n) (remaining s))) s).
Proof. apply bio_read_spec. Qed.

Lemma ReadBytes_neg n s : - maxsize - 1 <= n < 0 ->
  ReadBytes n s = (Ok (remaining s), advance (length (remaining s)) s).
Proof.
  intros H. unfold ReadBytes, bio_read. replace ((n <? - maxsize - 1) || (maxsize <? n)) with false by (unfold maxsize in *; lia).
  replace (n <? 0) with true by lia. fold (remaining s). rewrite firstn_all. reflexivity.
Qed.

Lemma SafeReadBytes_any n s : 0 <= n <= maxsize ->
  SafeReadBytes n s =
    if zlen (remaining s) <? n then (Raise ValueError, advance (length (remaining s)) s)
    else (Ok (firstn (Z.to_nat n) (remaining s)), advance (Z.to_nat n) s).
Proof.
  intros H. unfold SafeReadBytes, ibind. rewrite ReadBytes_any by exact H.
  destruct (zlen (remaining s) <? n) eqn:E.
  - rewrite firstn_all2 by (unfold zlen in *; lia). rewrite E. reflexivity.
  - unfold zlen in *. rewrite firstn_length_le by lia. replace (Z.of_nat (Z.to_nat n) <? n) with false by lia. reflexivity.
Qed.

Lemma unpack_s_any n s : 0 <= n <= maxsize ->
  unpack_s n s =
    if zlen (remaining s) <? n then (Raise StructError, advance (length (remaining s)) s)
    else (Ok (firstn (Z.to_nat n) (remaining s)), advance (Z.to_nat n) s).
Proof.
  intros H. unfold unpack_s, ibind. rewrite bio_read_spec by exact H. unfold ilift, struct_unpack_s.
  destruct (zlen (remaining s) <? n) eqn:E.
  - rewrite firstn_all2 by (unfold zlen in *; lia). replace (zlen (remaining s) =? n) with false by lia. reflexivity.
  - unfold zlen in *. rewrite firstn_length_le by lia. replace (Z.of_nat (Z.to_nat n) =? n) with true by lia. reflexivity.
Qed.

Lemma ReadVarString_any max n p s rest : varint LE n p -> remaining s = p ++ rest -> n <= max -> n <= maxsize ->
  ReadVarString max s =
    if zlen rest <? n then (Raise StructError, advance (length p + length rest) s)
    else (Ok (firstn (Z.to_nat n) rest), advance (length p + Z.to_nat n) s).
Proof.
  intros Hv Hs Hm Hx. pose proof (varint_range _ _ _ Hv). unfold ReadVarString, ibind.
  rewrite (ReadVarInt_enc _ _ _ _ _ Hv Hs). replace ((n =? 0) || (n <=? max)) with true by lia.
  rewrite unpack_s_any by lia. rewrite (remaining_advance_app _ _ _ Hs), !advance_advance. reflexivity.
Qed.

Lemma ReadVarBytes_any max n p s rest : varint LE n p -> remaining s = p ++ rest -> n <= max -> n <= maxsize ->
  ReadVarBytes max s = (Ok (firstn (Z.to_nat n) rest), advance (length p + length (firstn (Z.to_nat n) rest)) s).
Proof.
  intros Hv Hs Hm Hx. pose proof (varint_range _ _ _ Hv). unfold ReadVarBytes, ibind.
  rewrite (ReadVarInt_enc _ _ _ _ _ Hv Hs). replace ((n =? 0) || (n <=? max)) with true by lia.
  rewrite ReadBytes_any by lia. rewrite (remaining_advance_app _ _ _ Hs), !advance_advance. reflexivity.
Qed.

Lemma ReadString_any s b rest : remaining s = b :: rest ->
  ReadString s =
    if zlen rest <? b2z b then (Raise StructError, advance (1 + length rest) s)
    else (Ok (firstn (Z.to_nat (b2z b)) rest), advance (1 + Z.to_nat (b2z b)) s).
Proof.
  intros H. unfold ReadString, ibind, ReadUInt8. rewrite unpack_int_u by lia. rewrite H. cbn [length firstn].
  replace (S (length rest) <? 1)%nat with false by lia.
  pose proof (b2z_range b). rewrite num_eq. cbn [bytes2z order_bytes le2z].
  replace (b2z b + 256 * 0) with (b2z b) by lia.
  assert (remaining (advance 1 s) = rest) as Hr by (change 1%nat with (length [b]); apply remaining_advance_app; exact H).
  change (bytes2z LE [b]) with (b2z b + 256 * 0). replace (b2z b + 256 * 0) with (b2z b) by lia.
  rewrite unpack_s_any by (unfold maxsize; lia). rewrite Hr, !advance_advance. reflexivity.
Qed.

(** ** UInt *)
Lemma hex_text_all b : Nat.Even (length b) -> hex_text (map b2z b) <-> all_hex_digits b.
Proof.
  intros He. unfold hex_text, all_hex_digits. rewrite map_length, Forall_map. tauto.
Qed.

Lemma firstn_num u : GetHashCode (u_data u) = num LE (firstn 4 (u_data u)).
Proof.
  rewrite num_eq. unfold GetHashCode, bytes2z, order_bytes, zlen.
  destruct (4 <=? Z.of_nat (length (u_data u))) eqn:E; [reflexivity|].
  rewrite firstn_all, firstn_all2 by lia. reflexivity.
Qed.

Lemma uint_eq_spec u o : uint_eq u (Some o) = true <-> u_data u = u_data o.
Proof. unfold uint_eq. destruct (list_eq_dec _ _ _); split; congruence. Qed.

Lemma ReadUInt160_reads u : is_UInt160 u -> reads ReadUInt160 (u_data u) u.
Proof.
  intros (Hc & Hl & Hh). unfold ReadUInt160. eapply reads_lift.
  - unfold ReadBytes. apply bio_read_exact_n; [unfold zlen; lia|unfold maxsize; lia].
  - unfold new_UInt160, UIntBase_init, py_len, rbind. unfold zlen. rewrite Hl. cbn [negb Z.of_nat].
    change (Z.of_nat 20 =? Z.of_nat 20) with true. cbn [negb]. rewrite firstn_num, <- Hh, <- Hc. destruct u; reflexivity.
Qed.
Lemma ReadUInt256_reads u : is_UInt256 u -> reads ReadUInt256 (u_data u) u.
Proof.
  intros (Hc & Hl & Hh). unfold ReadUInt256. eapply reads_lift.
  - unfold ReadBytes. apply bio_read_exact_n; [unfold zlen; lia|unfold maxsize; lia].
  - unfold new_UInt256, UIntBase_init, py_len, rbind. unfold zlen. rewrite Hl.
    change (Z.of_nat 32 =? Z.of_nat 32) with true. cbn [negb]. rewrite firstn_num, <- Hh, <- Hc. destruct u; reflexivity.
Qed.

Lemma Serialize_plain u : Nat.Even (length (u_data u)) -> ~ all_hex_digits (u_data u) ->
  writes (uint_Serialize u) tt (u_data u).
Proof.
  intros He Hn. unfold uint_Serialize. eapply writes_seq_ret. rewrite WriteBytes_ba_eq.
  apply WriteBytes_nohex. rewrite hex_text_all by exact He. exact Hn.
Qed.
Lemma Serialize_hex u : Nat.Even (length (u_data u)) -> all_hex_digits (u_data u) ->
  exists d, hex_denotes (map b2z (u_data u)) d /\ length (u_data u) = (2 * length d)%nat /\ writes (uint_Serialize u) tt d.
Proof.
  intros He Hh. apply hex_text_all in Hh; [|exact He]. apply hex_text_denotes in Hh as (d & Hd & _).
  exists d. split; [exact Hd|]. split; [rewrite <- (map_length b2z); apply hex_denotes_length, Hd|].
  unfold uint_Serialize. eapply writes_seq_ret. rewrite WriteBytes_ba_eq. apply WriteBytes_hex, Hd.
Qed.
Lemma all_hex_digits_dec b : all_hex_digits b \/ ~ all_hex_digits b.
Proof.
  unfold all_hex_digits. destruct (forallb (fun x => is_hex_code (b2z x)) b) eqn:E; [left|right].
  - rewrite forallb_forall in E. apply Forall_forall. intros x Hx. apply is_hex_code_iff, E, Hx.
  - intros H. rewrite Forall_forall in H. assert (forallb (fun x => is_hex_code (b2z x)) b = true); [|congruence].
    apply forallb_forall. intros x Hx. apply is_hex_code_iff, H, Hx.
Qed.

Lemma WriteUInt160_eq u : u_cls u = CUInt160 -> WriteUInt160 (Some u) = uint_Serialize u.
Proof. intros H. unfold WriteUInt160. rewrite H. reflexivity. Qed.
Lemma WriteUInt256_eq u : u_cls u = CUInt256 -> WriteUInt256 (Some u) = uint_Serialize u.
Proof. intros H. unfold WriteUInt256. rewrite H. reflexivity. Qed.

Lemma even20 : Nat.Even 20. Proof. exists 10%nat. reflexivity. Qed.
Lemma even32 : Nat.Even 32. Proof. exists 16%nat. reflexivity. Qed.

Lemma u160_plain u : is_UInt160 u -> ~ all_hex_digits (u_data u) ->
  writes (WriteUInt160 (Some u)) tt (u_data u) /\ reads ReadUInt160 (u_data u) u.
Proof.
  intros H Hn. split; [|apply ReadUInt160_reads, H]. destruct H as (Hc & Hl & _). rewrite WriteUInt160_eq by exact Hc.
  apply Serialize_plain; [rewrite Hl; apply even20|exact Hn].
Qed.
Lemma u256_plain u : is_UInt256 u -> ~ all_hex_digits (u_data u) ->
  writes (WriteUInt256 (Some u)) tt (u_data u) /\ reads ReadUInt256 (u_data u) u.
Proof.
  intros H Hn. split; [|apply ReadUInt256_reads, H]. destruct H as (Hc & Hl & _). rewrite WriteUInt256_eq by exact Hc.
  apply Serialize_plain; [rewrite Hl; apply even32|exact Hn].
Qed.
Lemma u160_hex u : is_UInt160 u -> all_hex_digits (u_data u) ->
  exists d, hex_denotes (map b2z (u_data u)) d /\ length d = 10%nat /\ writes (WriteUInt160 (Some u)) tt d.
Proof.
  intros (Hc & Hl & _) Hh. rewrite WriteUInt160_eq by exact Hc.
  destruct (Serialize_hex u) as (d & H1 & H2 & H3); [rewrite Hl; apply even20|exact Hh|].
  exists d. split; [exact H1|]. split; [lia|exact H3].
Qed.
Lemma u256_hex u : is_UInt256 u -> all_hex_digits (u_data u) ->
  exists d, hex_denotes (map b2z (u_data u)) d /\ length d = 16%nat /\ writes (WriteUInt256 (Some u)) tt d.
Proof.
  intros (Hc & Hl & _) Hh. rewrite WriteUInt256_eq by exact Hc.
  destruct (Serialize_hex u) as (d & H1 & H2 & H3); [rewrite Hl; apply even32|exact Hh|].
  exists d. split; [exact H1|]. split; [lia|exact H3].
Qed.

Lemma ReadUInt_short n (mk : bytes -> res uint) s : (length (remaining s) < n)%nat -> Z.of_nat n <= maxsize ->
  (forall b, (length b < n)%nat -> mk b = Raise PlainException) ->
  (b <-- ReadBytes (Z.of_nat n) ; ilift (mk b)) s = (Raise PlainException, advance (length (remaining s)) s).
Proof.
  intros Hs Hn Hmk. unfold ibind. rewrite ReadBytes_any by lia. rewrite Nat2Z.id, firstn_all2 by lia.
  unfold ilift. rewrite Hmk by exact Hs. reflexivity.
Qed.
Lemma ReadUInt160_short s : (length (remaining s) < 20)%nat ->
  ReadUInt160 s = (Raise PlainException, advance (length (remaining s)) s).
Proof.
  intros H. apply (ReadUInt_short 20 (fun b => new_UInt160 (VBytearray b))); [exact H|discriminate|].
  intros b Hb. unfold new_UInt160, UIntBase_init, py_len, rbind, zlen.
  replace (Z.of_nat (length b) =? Z.of_nat 20) with false by lia. reflexivity.
Qed.
Lemma ReadUInt256_short s : (length (remaining s) < 32)%nat ->
  ReadUInt256 s = (Raise PlainException, advance (length (remaining s)) s).
Proof.
  intros H. apply (ReadUInt_short 32 (fun b => new_UInt256 (VBytearray b))); [exact H|discriminate|].
  intros b Hb. unfold new_UInt256, UIntBase_init, py_len, rbind, zlen.
  replace (Z.of_nat (length b) =? Z.of_nat 32) with false by lia. reflexivity.
Qed.

Lemma remaining_reopen pre d : remaining (mkStream (content (at_end (pre ++ d))) (length pre)) = d.
Proof. unfold remaining, at_end. cbn [content position]. apply skipn_app_exact. Qed.

(** the iff for C12 *)
Lemma u160_survives u pre : is_UInt160 u ->
  (exists s1 v s2, WriteUInt160 (Some u) (at_end pre) = (Ok tt, s1) /\
     ReadUInt160 (mkStream (content s1) (length pre)) = (Ok v, s2) /\ uint_eq u (Some v) = true)
  <-> ~ all_hex_digits (u_data u).
Proof.
  intros Hu. split.
  - intros (s1 & v & s2 & Hw & Hr & _) Hh. destruct (u160_hex u Hu Hh) as (d & _ & Hl & Hd).
    rewrite Hd in Hw. injection Hw as <-.
    rewrite ReadUInt160_short in Hr; [discriminate|]. rewrite remaining_reopen. lia.
  - intros Hn. destruct (u160_plain u Hu Hn) as [Hw Hr].
    eexists _, u, _. split; [apply Hw|]. split; [|apply uint_eq_spec; reflexivity].
    apply (Hr _ []). rewrite remaining_reopen, app_nil_r. reflexivity.
Qed.
Lemma u256_survives u pre : is_UInt256 u ->
  (exists s1 v s2, WriteUInt256 (Some u) (at_end pre) = (Ok tt, s1) /\
     ReadUInt256 (mkStream (content s1) (length pre)) = (Ok v, s2) /\ uint_eq u (Some v) = true)
  <-> ~ all_hex_digits (u_data u).
Proof.
  intros Hu. split.
  - intros (s1 & v & s2 & Hw & Hr & _) Hh. destruct (u256_hex u Hu Hh) as (d & _ & Hl & Hd).
    rewrite Hd in Hw. injection Hw as <-.
    rewrite ReadUInt256_short in Hr; [discriminate|]. rewrite remaining_reopen. lia.
  - intros Hn. destruct (u256_plain u Hu Hn) as [Hw Hr].
    eexists _, u, _. split; [apply Hw|]. split; [|apply uint_eq_spec; reflexivity].
    apply (Hr _ []). rewrite remaining_reopen, app_nil_r. reflexivity.
Qed.


Lemma firstn_remaining_full n (r : bytes) : (n <= length r)%nat -> length (firstn n r) = n.
Proof. intros H. rewrite firstn_length. lia. Qed.
Lemma u160_hex_following u d rest s : is_UInt160 u -> hex_denotes (map b2z (u_data u)) d ->
  remaining s = d ++ rest ->
  (exists v s', ReadUInt160 s = (Ok v, s') /\ uint_eq u (Some v) = true) <-> u_data u = firstn 20 (d ++ rest).
Proof.
  intros (Hc & Hl & Hh) _ Hr. rewrite <- Hr. destruct (Nat.lt_ge_cases (length (remaining s)) 20) as [L|L].
  - rewrite ReadUInt160_short by exact L. split; [intros (v & s' & H & _); discriminate|].
    intros H. apply (f_equal (@length byte)) in H. rewrite firstn_all2 in H by lia. lia.
  - assert (is_UInt160 (mkUInt CUInt160 (firstn 20 (remaining s)) (num LE (firstn 4 (firstn 20 (remaining s)))))) as Hu.
    { repeat split. apply firstn_remaining_full, L. }
    pose proof (ReadUInt160_reads _ Hu s (skipn 20 (remaining s))) as Hrd. cbn [u_data] in Hrd.
    rewrite firstn_skipn in Hrd. rewrite (Hrd eq_refl). split.
    + intros (v & s' & H & E). apply uint_eq_spec in E. injection H as Hv _. rewrite E, <- Hv. reflexivity.
    + intros H. eexists _, _. split; [reflexivity|]. apply uint_eq_spec. exact H.
Qed.
Lemma u256_hex_following u d rest s : is_UInt256 u -> hex_denotes (map b2z (u_data u)) d ->
  remaining s = d ++ rest ->
  (exists v s', ReadUInt256 s = (Ok v, s') /\ uint_eq u (Some v) = true) <-> u_data u = firstn 32 (d ++ rest).
Proof.
  intros (Hc & Hl & Hh) _ Hr. rewrite <- Hr. destruct (Nat.lt_ge_cases (length (remaining s)) 32) as [L|L].
  - rewrite ReadUInt256_short by exact L. split; [intros (v & s' & H & _); discriminate|].
    intros H. apply (f_equal (@length byte)) in H. rewrite firstn_all2 in H by lia. lia.
  - assert (is_UInt256 (mkUInt CUInt256 (firstn 32 (remaining s)) (num LE (firstn 4 (firstn 32 (remaining s)))))) as Hu.
    { repeat split. apply firstn_remaining_full, L. }
    pose proof (ReadUInt256_reads _ Hu s (skipn 32 (remaining s))) as Hrd. cbn [u_data] in Hrd.
    rewrite firstn_skipn in Hrd. rewrite (Hrd eq_refl). split.
    + intros (v & s' & H & E). apply uint_eq_spec in E. injection H as Hv _. rewrite E, <- Hv. reflexivity.
    + intros H. eexists _, _. split; [reflexivity|]. apply uint_eq_spec. exact H.
Qed.

Lemma WriteFixedString_surrogate s n : Forall code_point s -> ~ scalar_text s ->
  refuses (WriteFixedString s n) UnicodeError.
Proof. intros H Hn. apply refuses_lift. rewrite utf8_encode_bad by assumption. reflexivity. Qed.

(** ** fixed strings *)
Lemma write_zeros_writes n : writes (write_zeros n) tt (repeat x00 n).
Proof.
  induction n as [|n IH]; [apply writes_ret|]. cbn [write_zeros repeat].
  change (x00 :: repeat x00 n) with ([z2b 0] ++ repeat x00 n).
  eapply writes_bind; [apply WriteByte_int; lia|exact IH].
Qed.

Lemma lstrip_spec l : exists k, l = repeat x00 k ++ lstrip x00 l /\ (forall q, lstrip x00 l <> x00 :: q).
Proof.
  induction l as [|b l (k & Hk & Hn)]; [exists O; split; [reflexivity|discriminate]|].
  cbn [lstrip]. destruct (Byte.eqb b x00) eqn:E.
  - apply Byte.byte_dec_bl in E. subst b. exists (S k). split; [cbn [repeat app]; congruence|exact Hn].
  - exists O. split; [reflexivity|]. intros q H. injection H as -> _. discriminate.
Qed.
Lemma repeat_rev {A} (x : A) k : rev (repeat x k) = repeat x k.
Proof.
  induction k as [|k IH]; [reflexivity|]. cbn [repeat rev]. rewrite IH. clear IH.
  induction k as [|k IH]; [reflexivity|]. cbn [repeat app]. f_equal. exact IH.
Qed.
Lemma rstrip0_spec l : without_trailing_zeros l (rstrip0 l).
Proof.
  unfold rstrip0. destruct (lstrip_spec (rev l)) as (k & Hk & Hn). exists k. split.
  - rewrite <- (rev_involutive l) at 1. rewrite Hk at 1. rewrite rev_app_distr, repeat_rev. reflexivity.
  - intros q H. apply (Hn (rev q)). rewrite <- (rev_involutive (lstrip x00 (rev l))), H, rev_app_distr. reflexivity.
Qed.
Lemma wtz_unique b r1 r2 : without_trailing_zeros b r1 -> without_trailing_zeros b r2 -> r1 = r2.
Proof.
  intros (k1 & E1 & N1) (k2 & E2 & N2). rewrite E1 in E2.
  assert (forall k1 k2 r1 r2, r1 ++ repeat x00 k1 = r2 ++ repeat x00 k2 -> (k1 < k2)%nat -> exists q, r1 = q ++ [x00]) as H.
  { clear. intros k1 k2 r1 r2 H Hl. exists (r2 ++ repeat x00 (k2 - k1 - 1)).
    apply (app_inv_tail (repeat x00 k1)). rewrite H, <- !app_assoc. f_equal. cbn [app].
    change (x00 :: repeat x00 k1) with (repeat x00 (S k1)). rewrite <- repeat_app. f_equal. lia. }
  destruct (lt_eq_lt_dec k1 k2) as [[L|E]|L].
  - destruct (H _ _ _ _ E2 L) as [q Hq]. destruct (N1 _ Hq).
  - subst k2. apply app_inv_tail in E2. exact E2.
  - symmetry in E2. destruct (H _ _ _ _ E2 L) as [q Hq]. destruct (N2 _ Hq).
Qed.
Lemma wtz_pad b r k : without_trailing_zeros b r -> without_trailing_zeros (b ++ repeat x00 k) r.
Proof.
  intros (j & -> & Hn). exists (j + k)%nat. split; [|exact Hn]. rewrite <- app_assoc, <- repeat_app. reflexivity.
Qed.

Lemma WriteFixedString_long s b n : utf8_decode b = Some s -> n < zlen b -> refuses (WriteFixedString s n) PlainException.
Proof.
  intros Hd Hn. apply utf8_decode_iff in Hd as [Hs ->]. unfold WriteFixedString. intros st.
  rewrite utf8_encode_ok by exact Hs. cbn [ilift ibind]. unfold ibind, ilift.
  replace (zlen (utf8_chars s) >? n) with true by lia. reflexivity.
Qed.
Lemma WriteFixedString_fits s b n : utf8_decode b = Some s -> zlen b <= n ->
  WriteFixedString s n = (x <-- ilift (Ok b) ; WriteBytes (VBytes b) true ;; write_zeros (Z.to_nat (n - zlen b))).
Proof.
  intros Hd Hn. apply utf8_decode_iff in Hd as [Hs ->]. unfold WriteFixedString.
  rewrite utf8_encode_ok by exact Hs. unfold ibind, ilift. replace (zlen (utf8_chars s) >? n) with false by lia. reflexivity.
Qed.

Lemma fixed_string_plain s b r n : utf8_decode b = Some s -> zlen b <= n -> n <= maxsize ->
  ~ hex_text (map b2z b) \/ b = [] -> without_trailing_zeros b r ->
  exists enc, zlen enc = n /\ enc = b ++ repeat x00 (Z.to_nat (n - zlen b)) /\
    writes (WriteFixedString s n) tt enc /\ reads (ReadFixedString n) enc r.
Proof.
  intros Hd Hn Hm Hh Hr. exists (b ++ repeat x00 (Z.to_nat (n - zlen b))). pose proof (zlen_nonneg b).
  assert (Hz : zlen (b ++ repeat x00 (Z.to_nat (n - zlen b))) = n).
  { rewrite zlen_app. unfold zlen at 2. rewrite repeat_length. lia. }
  split; [exact Hz|]. split; [reflexivity|]. split.
  - rewrite (WriteFixedString_fits _ _ _ Hd Hn). eapply writes_lift; [reflexivity|].
    eapply writes_bind; [|apply write_zeros_writes].
    destruct Hh as [Hh| ->]; [apply WriteBytes_nohex, Hh|].
    change (zlen (@nil byte)) with (zlen (@nil byte)). apply (WriteBytes_hex [] []). reflexivity.
  - unfold ReadFixedString. set (enc := b ++ _) in *.
    replace r with (rstrip0 enc) by (eapply wtz_unique; [apply rstrip0_spec|apply wtz_pad, Hr]).
    apply (reads_bind_ret _ rstrip0). apply bio_read_exact_n; assumption.
Qed.

Lemma fixed_string_hex s b d n : utf8_decode b = Some s -> zlen b <= n ->
  hex_denotes (map b2z b) d ->
  writes (WriteFixedString s n) tt (d ++ repeat x00 (Z.to_nat (n - zlen b))) /\
  zlen (d ++ repeat x00 (Z.to_nat (n - zlen b))) = n - zlen d.
Proof.
  intros Hd Hn Hh. pose proof (hex_denotes_length _ _ Hh) as Hl. rewrite map_length in Hl. split.
  - rewrite (WriteFixedString_fits _ _ _ Hd Hn). eapply writes_lift; [reflexivity|].
    eapply writes_bind; [|apply write_zeros_writes]. apply WriteBytes_hex, Hh.
  - rewrite zlen_app. unfold zlen at 2. rewrite repeat_length. unfold zlen in *. lia.
Qed.
