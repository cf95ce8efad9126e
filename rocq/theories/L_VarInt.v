(** * L_VarInt: lemmas for WriteVarInt / ReadVarInt *)
From Coq Require Import Lia ZifyBool ZifyNat ZifyN.
From Verif Require Import M_Py M_UInt M_Writer M_Reader S_IO L_Bytes L_IO.
Ltac Zify.zify_post_hook ::= Z.div_mod_to_equations.

Lemma WriteByte_int v : 0 <= v <= 255 -> writes (WriteByte (VInt v)) tt [z2b v].
Proof.
  intros H. cbn [WriteByte]. replace ((0 <=? v) && (v <=? 255)) with true by lia.
  eapply writes_seq_ret. apply bio_write_end.
Qed.
Lemma WriteByte_int_bad v : ~ (0 <= v <= 255) -> refuses (WriteByte (VInt v)) ValueError.
Proof. intros H. cbn [WriteByte]. replace ((0 <=? v) && (v <=? 255)) with false by lia. apply refuses_raise. Qed.

(** the encoding chosen by WriteVarInt *)
Definition varenc (e : endian) (v : Z) : bytes :=
  if v <? 253 then [z2b v]
  else if v <=? 65535 then xfd :: z2bytes e 2 v
  else if v <=? 4294967295 then xfe :: z2bytes e 4 v
  else xff :: z2bytes e 8 v.
Definition varret (v : Z) : option Z :=
  if v <? 253 then None
  else if v <=? 65535 then Some 2
  else if v <=? 4294967295 then Some 4
  else Some 8.

Lemma fits_u n v : (0 < n)%nat -> 0 <= v < 256 ^ Z.of_nat n -> int_fits false n v = true.
Proof. intros Hn H. apply int_fits_spec; [exact Hn|exact H]. Qed.

Lemma num_z2bytes e n v : 0 <= v < 256 ^ Z.of_nat n -> num e (z2bytes e n v) = v.
Proof. intros H. rewrite num_eq, bytes2z_z2bytes. apply Z.mod_small, H. Qed.

Lemma varenc_spec e v : 0 <= v < 2 ^ 64 -> varint e v (varenc e v).
Proof.
  intros H. unfold varenc.
  destruct (v <? 253) eqn:E1; [apply varint1; [lia|apply z2b_small; lia]|].
  destruct (v <=? 65535) eqn:E2; [apply varint3; [lia|apply z2bytes_length|apply num_z2bytes; change (256 ^ Z.of_nat 2) with 65536; lia]|].
  destruct (v <=? 4294967295) eqn:E3; [apply varint5; [lia|apply z2bytes_length|apply num_z2bytes; change (256 ^ Z.of_nat 4) with 4294967296; lia]|].
  apply varint9; [lia|apply z2bytes_length|apply num_z2bytes; change (256 ^ Z.of_nat 8) with (2 ^ 64); lia].
Qed.

Lemma num_inj e a b : length a = length b -> num e a = num e b -> a = b.
Proof.
  intros Hl H. rewrite !num_eq in H. rewrite <- (z2bytes_bytes2z e a), <- (z2bytes_bytes2z e b), Hl, H. reflexivity.
Qed.

Lemma varint_unique e v a b : varint e v a -> varint e v b -> a = b.
Proof.
  intros Ha Hb. destruct Ha as [v x Hr Hx|v d Hr Hl Hn|v d Hr Hl Hn|v d Hr Hl Hn];
  inversion Hb as [v' y Hr' Hy|v' d' Hr' Hl' Hn'|v' d' Hr' Hl' Hn'|v' d' Hr' Hl' Hn']; subst; try lia;
  f_equal; first [apply b2z_inj; congruence | eapply num_inj; [congruence|eassumption || (symmetry; eassumption) || congruence]].
Qed.
Lemma varint_range e v a : varint e v a -> 0 <= v < 2 ^ 64.
Proof. destruct 1; lia. Qed.
Lemma varint_varenc e v a : varint e v a -> a = varenc e v.
Proof. intros H. eapply varint_unique; [exact H|]. apply varenc_spec, (varint_range _ _ _ H). Qed.

Lemma WriteUInt_writes (e : endian) n v : (0 < n)%nat -> 0 <= v < 256 ^ Z.of_nat n ->
  writes (pack_int e false n v) (Z.of_nat n) (z2bytes e n v).
Proof. intros Hn H. apply pack_int_writes, fits_u; assumption. Qed.

Lemma WriteVarInt_writes e v : 0 <= v < 2 ^ 64 -> writes (WriteVarInt (VInt v) e) (varret v) (varenc e v).
Proof.
  intros H. unfold WriteVarInt, varret, varenc. cbn [as_int].
  replace (v <? 0) with false by lia.
  destruct (v <? 253) eqn:E1; [eapply writes_seq_ret, WriteByte_int; lia|].
  destruct (v <=? 65535) eqn:E2.
  { change (xfd :: ?d) with ([z2b 253] ++ d). eapply writes_bind; [apply WriteByte_int; lia|].
    cbn beta. eapply (writes_bind_ret _ (fun n => Some n) 2).
    unfold WriteUInt16. change 2 with (Z.of_nat 2). apply WriteUInt_writes; [lia|]. change (256 ^ Z.of_nat 2) with 65536; lia. }
  destruct (v <=? 4294967295) eqn:E3.
  { change (xfe :: ?d) with ([z2b 254] ++ d). eapply writes_bind; [apply WriteByte_int; lia|].
    cbn beta. eapply (writes_bind_ret _ (fun n => Some n) 4).
    unfold WriteUInt32. change 4 with (Z.of_nat 4). apply WriteUInt_writes; [lia|]. change (256 ^ Z.of_nat 4) with 4294967296; lia. }
  change (xff :: ?d) with ([z2b 255] ++ d). eapply writes_bind; [apply WriteByte_int; lia|].
  cbn beta. eapply (writes_bind_ret _ (fun n => Some n) 8).
  unfold WriteUInt64. change 8 with (Z.of_nat 8). apply WriteUInt_writes; [lia|]. change (256 ^ Z.of_nat 8) with (2 ^ 64); lia.
Qed.

Lemma WriteVarInt_neg e v : v < 0 -> refuses (WriteVarInt (VInt v) e) PlainException.
Proof. intros H. unfold WriteVarInt. cbn [as_int]. replace (v <? 0) with true by lia. apply refuses_raise. Qed.

Lemma WriteVarInt_big e v pre : 2 ^ 64 <= v ->
  WriteVarInt (VInt v) e (at_end pre) = (Raise StructError, at_end (pre ++ [xff])).
Proof.
  intros H. unfold WriteVarInt. cbn [as_int].
  replace (v <? 0) with false by lia. replace (v <? 253) with false by lia.
  replace (v <=? 65535) with false by lia. replace (v <=? 4294967295) with false by lia.
  unfold ibind at 1. rewrite (WriteByte_int 255) by lia. change [z2b 255] with [xff].
  unfold WriteUInt64. rewrite refuses_bind; [reflexivity|]. apply pack_int_refuses.
  unfold int_fits, int_min, int_max. change (256 ^ Z.of_nat 8) with (2 ^ 64). lia.
Qed.

(** ** reading *)
Lemma ReadByte_cons s b r : remaining s = b :: r -> ReadByte s = (Ok (b2z b), advance 1 s).
Proof.
  intros H. unfold ReadByte, itry, ibind. rewrite bio_read_spec by (unfold maxsize; lia).
  rewrite H. change (Z.to_nat 1) with 1%nat. cbn [firstn length iret]. reflexivity.
Qed.
Lemma ReadByte_nil s : remaining s = [] -> ReadByte s = (Ok 0, s).
Proof.
  intros H. unfold ReadByte, itry, ibind. rewrite bio_read_spec by (unfold maxsize; lia).
  rewrite H. change (Z.to_nat 1) with 1%nat. cbn [firstn length iret]. unfold iret, iraise. rewrite advance_0. reflexivity.
Qed.

Lemma unpack_int_u e n s : (0 < n)%nat -> Z.of_nat n <= 8 ->
  unpack_int e false n s =
    if (length (remaining s) <? n)%nat then (Raise StructError, advance (length (remaining s)) s)
    else (Ok (num e (firstn n (remaining s))), advance n s).
Proof.
  intros Hn H8. unfold unpack_int, ibind. rewrite bio_read_spec by (unfold maxsize; lia).
  rewrite Nat2Z.id. unfold ilift, struct_unpack_int, zlen.
  destruct (length (remaining s) <? n)%nat eqn:E.
  - rewrite firstn_all2 by lia. replace (Z.of_nat (length (remaining s)) =? Z.of_nat n) with false by lia. reflexivity.
  - rewrite firstn_length_le by lia. rewrite Z.eqb_refl. unfold int_from_bytes. cbn [andb]. rewrite num_eq. reflexivity.
Qed.

Definition pay_width (b : byte) : nat :=
  if Byte.eqb b xfd then 2 else if Byte.eqb b xfe then 4 else if Byte.eqb b xff then 8 else 0.
Definition pay_value (b : byte) (r : bytes) : Z :=
  match pay_width b with O => b2z b | w => num LE (firstn w r) end.

Lemma byte_eqb_b2z a b : Byte.eqb a b = (b2z a =? b2z b).
Proof.
  destruct (b2z a =? b2z b) eqn:E.
  - apply Z.eqb_eq, b2z_inj in E. subst. apply Byte.byte_dec_lb. reflexivity.
  - destruct (Byte.eqb a b) eqn:E2; [|reflexivity]. apply Byte.byte_dec_bl in E2. subst. rewrite Z.eqb_refl in E. discriminate.
Qed.

Lemma ReadVarInt_nil max s : remaining s = [] -> ReadVarInt max s = (Ok 0, s).
Proof. intros H. unfold ReadVarInt, ibind. rewrite ReadByte_nil by exact H. reflexivity. Qed.

Lemma ReadVarInt_cons max s b r : remaining s = b :: r ->
  ReadVarInt max s =
    if Byte.eqb b x00 then (Ok 0, advance 1 s)
    else if (length r <? pay_width b)%nat then (Raise StructError, advance (1 + length r) s)
    else ((if max <? pay_value b r then Raise PlainException else Ok (pay_value b r)),
          advance (1 + pay_width b) s).
Proof.
  intros H. unfold ReadVarInt. unfold ibind at 1. rewrite (ReadByte_cons _ _ _ H).
  rewrite byte_eqb_b2z. change (b2z x00) with 0. destruct (b2z b =? 0) eqn:E0.
  { apply Z.eqb_eq in E0. rewrite E0. reflexivity. }
  assert (Hr : remaining (advance 1 s) = r) by (change 1%nat with (length [b]); apply remaining_advance_app; exact H).
  unfold pay_value, pay_width. rewrite !byte_eqb_b2z.
  change (b2z xfd) with 253. change (b2z xfe) with 254. change (b2z xff) with 255.
  destruct (b2z b =? 253) eqn:E1; [|destruct (b2z b =? 254) eqn:E2; [|destruct (b2z b =? 255) eqn:E3]].
  1-3: unfold ReadUInt16, ReadUInt32, ReadUInt64; unfold ibind; rewrite unpack_int_u by lia; rewrite Hr;
    match goal with |- context [if (?q <? ?k)%nat then _ else _] => destruct (q <? k)%nat eqn:E4 end;
    rewrite advance_advance; cbn [Nat.add];
    [reflexivity|]; rewrite Z.gtb_ltb;
    match goal with |- context [if ?q <? ?v then _ else _] => destruct (q <? v) end; reflexivity.
  unfold ibind, iret. replace (length r <? 0)%nat with false by lia. rewrite Z.gtb_ltb.
  destruct (max <? b2z b); reflexivity.
Qed.

Lemma varint_head e v enc : varint e v enc -> exists b r, enc = b :: r /\ length r = pay_width b /\
  (b = x00 <-> v = 0) /\ (e = LE -> forall rest, pay_value b (r ++ rest) = v).
Proof.
  intros H. destruct H as [v b Hr Hx|v d Hr Hl Hn|v d Hr Hl Hn|v d Hr Hl Hn].
  - exists b, []. assert (pay_width b = O) as W.
    { unfold pay_width. rewrite !byte_eqb_b2z. change (b2z xfd) with 253. change (b2z xfe) with 254. change (b2z xff) with 255.
      replace (b2z b =? 253) with false by lia. replace (b2z b =? 254) with false by lia. replace (b2z b =? 255) with false by lia. reflexivity. }
    repeat split; [cbn [length]; congruence| | |].
    + intros ->. rewrite <- Hx. reflexivity.
    + intros ->. apply b2z_inj. rewrite Hx. reflexivity.
    + intros _ rest. unfold pay_value. rewrite W. exact Hx.
  - exists xfd, d. repeat split; [exact Hl|discriminate|lia|].
    intros -> rest. unfold pay_value. cbn [pay_width Byte.eqb]. change (pay_width xfd) with 2%nat.
    rewrite <- Hl at 1. cbv iota. rewrite Hl. rewrite <- Hl, firstn_app_exact. exact Hn.
  - exists xfe, d. repeat split; [exact Hl|discriminate|lia|].
    intros -> rest. unfold pay_value. change (pay_width xfe) with 4%nat. cbv iota. rewrite <- Hl, firstn_app_exact. exact Hn.
  - exists xff, d. repeat split; [exact Hl|discriminate|lia|].
    intros -> rest. unfold pay_value. change (pay_width xff) with 8%nat. cbv iota. rewrite <- Hl, firstn_app_exact. exact Hn.
Qed.

Lemma ReadVarInt_enc max v enc s rest : varint LE v enc -> remaining s = enc ++ rest ->
  ReadVarInt max s = ((if (v =? 0) || (v <=? max) then Ok v else Raise PlainException), advance (length enc) s).
Proof.
  intros Hv Hs. destruct (varint_head _ _ _ Hv) as (b & r & -> & Hl & Hz & Hp).
  cbn [app] in Hs. rewrite (ReadVarInt_cons _ _ _ _ Hs).
  destruct (Byte.eqb b x00) eqn:E0.
  - apply Byte.byte_dec_bl in E0. pose proof (proj1 Hz E0) as ->. subst b. change (pay_width x00) with O in Hl.
    cbn [length]. rewrite Hl. reflexivity.
  - assert (b <> x00) as Hb by (intros ->; discriminate E0).
    assert (v <> 0) as Hv0 by tauto.
    rewrite app_length. replace (length r + length rest <? pay_width b)%nat with false by lia.
    rewrite (Hp eq_refl). cbn [length]. rewrite Hl. replace (v =? 0) with false by lia. cbn [orb].
    replace (v <=? max) with (negb (max <? v)) by lia. destruct (max <? v); reflexivity.
Qed.

Lemma ReadVarInt_reads max v enc : varint LE v enc -> v = 0 \/ v <= max -> reads (ReadVarInt max) enc v.
Proof.
  intros Hv Hm s rest Hs. rewrite (ReadVarInt_enc _ _ _ _ _ Hv Hs).
  replace ((v =? 0) || (v <=? max)) with true by lia. reflexivity.
Qed.

(** minimality: anything that reads to v is at least as long *)
Lemma varint_shortest max e v enc d : varint e v enc -> reads (ReadVarInt max) d v -> (length enc <= length d)%nat.
Proof.
  intros Hv Hd. destruct d as [|b r].
  { (* the empty string cannot be an encoding: what follows would matter *)
    pose proof (Hd (mkStream [x01] 0) [x01] eq_refl) as H1.
    erewrite ReadVarInt_cons in H1 by reflexivity. cbn in H1.
    destruct (max <? 1); inversion H1. }
  assert (Hs : remaining (mkStream (b :: r) 0) = (b :: r) ++ []) by (rewrite app_nil_r; reflexivity).
  pose proof (Hd _ _ Hs) as H1. rewrite app_nil_r in Hs. rewrite (ReadVarInt_cons _ _ _ _ Hs) in H1.
  destruct (Byte.eqb b x00) eqn:E0.
  { injection H1 as Hv0 _. subst v. inversion Hv; subst; cbn [length]; lia. }
  destruct (length r <? pay_width b)%nat eqn:EL; [discriminate|].
  destruct (max <? pay_value b r) eqn:EM; [discriminate|].
  injection H1 as Hp HL.
  assert (v < 256 ^ Z.of_nat (Nat.max 1 (pay_width b)) /\ (pay_width b = O -> v < 253)) as [Hb Hb0].
  { rewrite <- Hp. unfold pay_value. destruct (pay_width b) as [|w] eqn:EW.
    - pose proof (b2z_range b). split; [cbn; lia|]. intros _. unfold pay_width in EW.
      rewrite !byte_eqb_b2z in EW. change (b2z xfd) with 253 in EW. change (b2z xfe) with 254 in EW. change (b2z xff) with 255 in EW.
      destruct (b2z b =? 253) eqn:?; [discriminate|]. destruct (b2z b =? 254) eqn:?; [discriminate|]. destruct (b2z b =? 255) eqn:?; [discriminate|]. lia.
    - split; [|discriminate]. rewrite num_eq. pose proof (bytes2z_bound LE (firstn (S w) r)) as B.
      unfold zlen in B. rewrite firstn_length_le in B by lia. rewrite Nat.max_r by lia. lia. }
  assert (pay_width b = O \/ pay_width b = 2 \/ pay_width b = 4 \/ pay_width b = 8)%nat as HW
    by (unfold pay_width; destruct (Byte.eqb b xfd); [lia|]; destruct (Byte.eqb b xfe); [lia|]; destruct (Byte.eqb b xff); lia).
  cbn [length].
  destruct Hv as [v x Hr Hx|v dd Hr Hl Hn|v dd Hr Hl Hn|v dd Hr Hl Hn]; cbn [length]; try rewrite Hl;
  destruct HW as [W|[W|[W|W]]]; rewrite W in *; cbn [Nat.max] in Hb;
  try (specialize (Hb0 eq_refl)); try lia;
  repeat match goal with H : context [256 ^ Z.of_nat ?k] |- _ => let x := eval vm_compute in (256 ^ Z.of_nat k) in change (256 ^ Z.of_nat k) with x in H end; lia.
Qed.
