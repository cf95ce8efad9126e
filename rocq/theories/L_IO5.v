(** * L_IO5: variable-length integers, statements as used in P_IO *)
From Coq Require Import Lia ZifyBool ZifyNat ZifyN.
From Verif Require Import M_Py M_UInt M_Writer M_Reader S_IO S_IO2 L_Bytes L_IO L_VarInt L_Hex L_IO2 L_IO3.
Ltac Zify.zify_post_hook ::= Z.div_mod_to_equations.

Lemma announced_width_eq b : announced_width b = pay_width b.
Proof. destruct b; reflexivity. Qed.
Lemma announced_value_eq b r : announced_value b r = pay_value b r.
Proof. unfold announced_value, pay_value. rewrite announced_width_eq. reflexivity. Qed.

Lemma varint_written e v : 0 <= v < 2 ^ 64 -> exists enc ret, varint e v enc /\ writes (WriteVarInt (VInt v) e) ret enc.
Proof. intros H. exists (varenc e v), (varret v). split; [apply varenc_spec, H|apply WriteVarInt_writes, H]. Qed.

Lemma varint_verdict max s b r : remaining s = b :: r ->
  ReadVarInt max s =
    (if (length r <? announced_width b)%nat then (Raise StructError, advance (1 + length r) s)
     else ((if (Byte.eqb b x00 || (announced_value b r <=? max))%bool then Ok (announced_value b r) else Raise PlainException),
           advance (1 + announced_width b) s)).
Proof.
  intros H. rewrite (ReadVarInt_cons _ _ _ _ H), announced_width_eq, announced_value_eq.
  destruct (Byte.eqb b x00) eqn:E.
  - apply Byte.byte_dec_bl in E. subst b. change (pay_width x00) with O.
    replace (length r <? 0)%nat with false by lia. cbn [orb]. reflexivity.
  - destruct (length r <? pay_width b)%nat; [reflexivity|]. cbn [orb].
    replace (pay_value b r <=? max) with (negb (max <? pay_value b r)) by lia. destruct (max <? pay_value b r); reflexivity.
Qed.

Lemma reads_long3 max v : 0 <= v < 2 ^ 16 -> v <= max -> reads (ReadVarInt max) (xfd :: z2bytes LE 2 v) v.
Proof.
  intros H Hm s rest Hs. cbn [app] in Hs. rewrite (ReadVarInt_cons _ _ _ _ Hs). change (Byte.eqb xfd x00) with false.
  change (pay_width xfd) with 2%nat. rewrite app_length, z2bytes_length.
  replace (2 + length rest <? 2)%nat with false by lia. cbv iota.
  assert (pay_value xfd (z2bytes LE 2 v ++ rest) = v) as ->.
  { unfold pay_value. change (pay_width xfd) with 2%nat. cbv iota. rewrite <- (z2bytes_length LE 2 v) at 1.
    rewrite firstn_app_exact. apply num_z2bytes. exact H. }
  replace (max <? v) with false by lia. cbn [length]. rewrite z2bytes_length. reflexivity.
Qed.

Lemma varint_not_injective max v : 0 <= v < 253 -> v <= max ->
  exists a b, a <> b /\ reads (ReadVarInt max) a v /\ reads (ReadVarInt max) b v.
Proof.
  intros H Hm. exists [z2b v], (xfd :: z2bytes LE 2 v). split; [discriminate|]. split; [|apply reads_long3; lia].
  apply ReadVarInt_reads; [|right; exact Hm]. constructor; [lia|apply z2b_small; lia].
Qed.

Lemma num_le_rev d : num LE d = num BE (rev d).
Proof. cbn [num]. rewrite num_le_eq, num_be_eq, rev_involutive. reflexivity. Qed.

Lemma big_endian_varint v enc max : varint BE v enc ->
  (v < 253 -> varint LE v enc) /\
  (253 <= v -> exists m d, enc = m :: d /\
     (num LE d <= max -> reads (ReadVarInt max) enc (num LE d)) /\
     (num LE d > max -> forall s rest, remaining s = enc ++ rest -> ReadVarInt max s = (Raise PlainException, advance (length enc) s)) /\
     (num LE d = v <-> d = rev d)).
Proof.
  intros H. split.
  { intros Hv. inversion H; subst; try lia. constructor; [lia|reflexivity]. }
  intros Hv.
  assert (exists m d, enc = m :: d /\ (m = xfd \/ m = xfe \/ m = xff) /\ length d = pay_width m /\ num BE d = v) as (m & d & -> & Hm & Hl & Hn).
  { inversion H; subst; try lia; eexists _, d; (split; [reflexivity|]); (split; [auto|]); (split; [assumption|reflexivity]). }
  exists m, d. split; [reflexivity|].
  assert (Hr : forall s rest, remaining s = (m :: d) ++ rest ->
     ReadVarInt max s = ((if max <? num LE d then Raise PlainException else Ok (num LE d)), advance (length (m :: d)) s)).
  { intros s rest Hs. cbn [app] in Hs. rewrite (ReadVarInt_cons _ _ _ _ Hs).
    replace (Byte.eqb m x00) with false by (destruct Hm as [->|[->| ->]]; reflexivity).
    rewrite app_length. replace (length d + length rest <? pay_width m)%nat with false by lia.
    assert (pay_value m (d ++ rest) = num LE d) as ->.
    { unfold pay_value. rewrite <- Hl. destruct d as [|b0 d0]; [destruct Hm as [->|[->| ->]]; discriminate Hl|].
      change (num LE (firstn (length (b0 :: d0)) ((b0 :: d0) ++ rest)) = num LE (b0 :: d0)).
      rewrite firstn_app_exact. reflexivity. }
    cbn [length]. rewrite Hl. reflexivity. }
  split; [|split].
  - intros Hmax s rest Hs. rewrite (Hr _ _ Hs). replace (max <? num LE d) with false by lia. reflexivity.
  - intros Hmax s rest Hs. rewrite (Hr _ _ Hs). replace (max <? num LE d) with true by lia. reflexivity.
  - rewrite num_le_rev. split.
    + intros E. apply (num_inj BE); [rewrite rev_length; reflexivity|]. congruence.
    + intros E. rewrite <- E. exact Hn.
Qed.

Lemma varint_beyond_default v : 2 ^ 63 <= v < 2 ^ 64 -> exists enc ret, varint LE v enc /\
  writes (WriteVarInt (VInt v) LE) ret enc /\
  forall s rest, remaining s = enc ++ rest -> ReadVarInt maxsize s = (Raise PlainException, advance (length enc) s).
Proof.
  intros H. destruct (varint_written LE v) as (enc & ret & Hv & Hw); [lia|]. exists enc, ret. split; [exact Hv|]. split; [exact Hw|].
  intros s rest Hs. rewrite (ReadVarInt_enc _ _ _ _ _ Hv Hs). unfold maxsize.
  replace ((v =? 0) || (v <=? 9223372036854775807)) with false by lia. reflexivity.
Qed.

Lemma varint_over v max enc : varint LE v enc -> 0 < v -> max < v ->
  forall s rest, remaining s = enc ++ rest -> ReadVarInt max s = (Raise PlainException, advance (length enc) s).
Proof.
  intros Hv H0 Hm s rest Hs. rewrite (ReadVarInt_enc _ _ _ _ _ Hv Hs). replace ((v =? 0) || (v <=? max)) with false by lia. reflexivity.
Qed.

Lemma varint_reported v e : 0 <= v < 2 ^ 64 -> exists enc, varint e v enc /\
  writes (WriteVarInt (VInt v) e) (if v <? 253 then None else Some (zlen enc - 1)) enc.
Proof.
  intros H. exists (varenc e v). split; [apply varenc_spec, H|].
  assert ((if v <? 253 then None else Some (zlen (varenc e v) - 1)) = varret v) as ->; [|apply WriteVarInt_writes, H].
  unfold varret, varenc. destruct (v <? 253); [reflexivity|].
  destruct (v <=? 65535); [|destruct (v <=? 4294967295)]; rewrite zlen_cons; unfold zlen; rewrite z2bytes_length; reflexivity.
Qed.

Lemma WriteVarInt_nonint v e : as_int v = None -> refuses (WriteVarInt v e) TypeError.
Proof. intros H. unfold WriteVarInt. rewrite H. apply refuses_raise. Qed.

Lemma bits_of_pos_first p : exists r, bits_of_pos p = 49 :: r.
Proof. induction p as [p [r IH]|p [r IH]|]; cbn [bits_of_pos]; [rewrite IH; exists (r ++ [49]); reflexivity|rewrite IH; exists (r ++ [48]); reflexivity|exists []; reflexivity]. Qed.
Lemma bin_shape n : exists t, binary_of (Z.abs n) t /\ bin n = (if n <? 0 then [45] else []) ++ [48; 98] ++ t.
Proof.
  destruct n as [|p|p].
  - exists [48]. split; [|reflexivity]. split; [constructor; [lia|constructor]|]. split; [reflexivity|left; reflexivity].
  - exists (bits_of_pos p). split; [|reflexivity]. split; [apply bits_of_pos_binary|]. split; [apply bits_of_pos_value|right; apply bits_of_pos_first].
  - exists (bits_of_pos p). split; [|reflexivity]. split; [apply bits_of_pos_binary|]. split; [apply bits_of_pos_value|right; apply bits_of_pos_first].
Qed.
Lemma bin_mid w v : (0 < w)%nat -> - 2 ^ (Z.of_nat w - 1) <= v < 0 -> length (last_n w (bin (v + 2 ^ Z.of_nat w))) = w /\
  binary_text (last_n w (bin (v + 2 ^ Z.of_nat w))) /\ bits_value (last_n w (bin (v + 2 ^ Z.of_nat w))) = v mod 2 ^ Z.of_nat w.
Proof.
  intros W0 Hv. set (W := 2 ^ Z.of_nat w) in *.
  assert (HW : W = 2 * 2 ^ (Z.of_nat w - 1)) by (unfold W; rewrite <- Z.pow_succ_r by lia; f_equal; lia).
  assert (H2 : 0 < 2 ^ (Z.of_nat w - 1)) by (apply Z.pow_pos_nonneg; lia).
  destruct (v + W) as [|p|p] eqn:E; [lia| |lia]. cbn [bin].
  assert (Hlen : length (bits_of_pos p) = w).
  { pose proof (bits_of_pos_length p) as Hl. assert (L : Z.log2 (Zpos p) = Z.of_nat w - 1) by (apply Z.log2_unique; [lia|]; replace (Z.succ (Z.of_nat w - 1)) with (Z.of_nat w) by lia; fold W; lia). lia. }
  rewrite last_n_app by exact Hlen. split; [exact Hlen|]. split; [apply bits_of_pos_binary|].
  rewrite bits_of_pos_value. replace v with (Zpos p + (-1) * W) by lia. rewrite Z_mod_plus_full. symmetry. apply Z.mod_small. lia.
Qed.
Lemma c160 v : 0 <= v -> length (convert_to_uint160 v) = 20%nat /\ binary_text (convert_to_uint160 v) /\ bits_value (convert_to_uint160 v) = v mod 2 ^ 20.
Proof. intros H. apply (bin_low 20 v H). Qed.
Lemma c256 v : 0 <= v -> length (convert_to_uint256 v) = 32%nat /\ binary_text (convert_to_uint256 v) /\ bits_value (convert_to_uint256 v) = v mod 2 ^ 32.
Proof. intros H. apply (bin_low 32 v H). Qed.

Lemma SafeReadBytes_neg n s : - maxsize - 1 <= n < 0 ->
  SafeReadBytes n s = (Ok (remaining s), advance (length (remaining s)) s).
Proof.
  intros H. unfold SafeReadBytes, ibind. rewrite ReadBytes_neg by exact H.
  pose proof (zlen_nonneg (remaining s)). replace (zlen (remaining s) <? n) with false by lia. reflexivity.
Qed.

Lemma WriteBytes_str_false' s : refuses (WriteBytes (VStr s) false) TypeError.
Proof. apply WriteBytes_str_false. Qed.

Lemma WriteUInt_wrong u : (u_cls u <> CUInt160 -> refuses (WriteUInt160 (Some u)) PlainException) /\
  (u_cls u <> CUInt256 -> refuses (WriteUInt256 (Some u)) PlainException).
Proof.
  unfold WriteUInt160, WriteUInt256. split; intros H; destruct (u_cls u); try congruence; apply refuses_raise.
Qed.

Lemma ReadBool_eof s : remaining s = [] -> ReadBool s = (Raise StructError, s).
Proof. intros H. apply (read1_short struct_unpack_bool); [exact H|reflexivity]. Qed.
Lemma ReadChar_eof s : remaining s = [] -> ReadChar s = (Raise StructError, s).
Proof. intros H. apply (read1_short struct_unpack_char); [exact H|reflexivity]. Qed.

Lemma fixed8_refused z : ~ (- 2 ^ 63 <= z < 2 ^ 63) -> refuses (WriteFixed8 z) StructError.
Proof. intros H. apply (int_refused I64 LE z). cbn. lia. Qed.

Lemma bytearray_same b u : WriteBytes (VBytearray b) u = WriteBytes (VBytes b) u.
Proof. reflexivity. Qed.

Lemma WriteVarString_refused v : (forall s, v <> VStr s) -> (forall b, v <> VBytes b) -> (forall b, v <> VBytearray b) ->
  refuses (WriteVarString v) TypeError.
Proof. intros H1 H2 H3. destruct v; try (intros st; reflexivity); exfalso; [eapply H2|eapply H3|eapply H1]; reflexivity. Qed.

Lemma WriteByte_ok v : 0 <= v <= 255 -> exists b, b2z b = v /\ writes (WriteByte (VInt v)) tt [b] /\ reads ReadByte [b] v.
Proof.
  intros H. exists (z2b v). assert (E : b2z (z2b v) = v) by (apply z2b_small; lia). split; [exact E|].
  split; [apply WriteByte_int, H|]. pose proof (ReadByte_reads (z2b v)) as R. rewrite E in R. exact R.
Qed.
Lemma varbytes_reported b : zlen b <= maxsize -> exists p, varint LE (zlen b) p /\
  writes (WriteVarBytes (VBytes b) LE) (zlen (p ++ b) - zlen p) (p ++ b).
Proof.
  intros H. exists (varenc LE (zlen b)). pose proof (zlen_nonneg b). pose proof maxsize_lt. split; [apply varenc_spec; lia|].
  replace (zlen (varenc LE (zlen b) ++ b) - zlen (varenc LE (zlen b))) with (zlen b) by (rewrite zlen_app; lia).
  apply WriteVarBytes_writes, H.
Qed.
