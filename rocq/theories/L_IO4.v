(** * L_IO4: messages and histories *)
From Coq Require Import Lia ZifyBool ZifyNat ZifyN.
From Verif Require Import M_Py M_UInt M_Writer M_Reader S_IO S_IO2 S_Msg L_Bytes L_IO L_VarInt L_Hex L_Utf8 L_IO2 L_IO3.
Ltac Zify.zify_post_hook ::= Z.div_mod_to_equations.

Lemma fixed8_rt z : - 2 ^ 63 <= z < 2 ^ 63 -> exists enc, length enc = 8%nat /\ encodes I64 LE z enc /\ writes (WriteFixed8 z) 8 enc /\ reads ReadFixed8 enc z.
Proof.
  intros H. destruct (int_roundtrip I64 LE z) as (enc & He & Hw & Hr); [cbn; lia|].
  exists enc. split; [apply He|]. split; [exact He|]. split; [exact Hw|exact Hr].
Qed.

Lemma u256_klass_item u : is_UInt256 u -> ~ all_hex_digits (u_data u) ->
  writes (k_ser UInt256_klass u) tt (u_data u) /\ reads (k_deser UInt256_klass (k_new UInt256_klass)) (u_data u) u.
Proof.
  intros (Hc & Hl & Hh) Hn. split.
  - apply Serialize_plain; [rewrite Hl; apply even32|exact Hn].
  - cbn [k_deser k_new UInt256_klass]. unfold uint_Deserialize.
    replace u with (mkUInt CUInt256 (u_data u) (GetHashCode (u_data u))) at 2
      by (rewrite firstn_num, <- Hh, <- Hc; destruct u; reflexivity).
    apply (reads_bind_ret _ (fun b => mkUInt CUInt256 b (GetHashCode b))).
    apply bio_read_exact_n; [unfold zlen; rewrite Hl; reflexivity|unfold maxsize; cbn; lia].
Qed.

Lemma item_ok kv : carriable kv -> exists enc y, writes (write_item kv) tt enc /\ reads (read_item (fst kv)) enc y /\ comes_back kv y.
Proof.
  destruct kv as [k v]. cbn [fst].
  destruct k as [t e| | | |max|max|max|n| | | | |max], v as [z|b|b|s|u|l|l]; cbn [carriable]; intros H; try contradiction; cbn [write_item read_item comes_back].
  - destruct (int_roundtrip t e z H) as (enc & _ & Hw & Hr). exists enc, (XInt z).
    split; [eapply writes_seq_ret, Hw|]. split; [apply (reads_bind_ret _ XInt), Hr|reflexivity].
  - exists [if b then x01 else x00], (XBool b). split; [eapply writes_seq_ret, (WriteBool_writes (VBool b))|]. split; [|reflexivity].
    pose proof (ReadBool_reads (if b then x01 else x00)) as Hr. apply (reads_bind_ret _ XBool) in Hr. destruct b; exact Hr.
  - exists [z2b z], (XInt z). split; [apply WriteByte_int, H|]. split; [|reflexivity].
    pose proof (ReadByte_reads (z2b z)) as Hr. rewrite z2b_small in Hr by lia. apply (reads_bind_ret _ XInt), Hr.
  - destruct b as [|c [|d r]]; try discriminate. exists [c], (XBytes [c]). split; [eapply writes_seq_ret, WriteChar_writes|].
    split; [apply (reads_bind_ret _ XBytes), ReadChar_reads|reflexivity].
  - assert (Hv : varint LE z (varenc LE z)) by (apply varenc_spec; lia).
    exists (varenc LE z), (XInt z). split; [eapply writes_seq_ret, WriteVarInt_writes; lia|].
    split; [apply (reads_bind_ret _ XInt), ReadVarInt_reads; [exact Hv|lia]|reflexivity].
  - destruct (var_bytes_ok b max) as (p & _ & Hw & _ & Hr & _); [lia|lia|]. exists (p ++ b), (XBytes b).
    split; [eapply writes_seq_ret, Hw|]. split; [apply (reads_bind_ret _ XBytes), Hr|reflexivity].
  - destruct H as (b & Hd & Hm & Hx). destruct (WriteVarString_text s b max Hd Hx) as (p & _ & Hw & Hr).
    exists (p ++ b), (XBytes b). split; [exact Hw|]. split; [apply (reads_bind_ret _ XBytes), Hr, Hm|]. exists b. split; [reflexivity|exact Hd].
  - destruct H as (b & Hd & Hm & Hx & Hn).
    destruct (fixed_string_plain s b (rstrip0 b) n Hd Hm Hx (or_introl Hn) (rstrip0_spec b)) as (enc & _ & _ & Hw & Hr).
    exists enc, (XBytes (rstrip0 b)). split; [exact Hw|]. split; [apply (reads_bind_ret _ XBytes), Hr|].
    exists b, (rstrip0 b). split; [reflexivity|]. split; [exact Hd|apply rstrip0_spec].
  - destruct (fixed8_rt z H) as (enc & _ & _ & Hw & Hr). exists enc, (XInt z).
    split; [eapply writes_seq_ret, Hw|]. split; [apply (reads_bind_ret _ XInt), Hr|reflexivity].
  - destruct (u160_plain u (proj1 H) (proj2 H)) as [Hw Hr]. exists (u_data u), (XUInt u).
    split; [exact Hw|]. split; [apply (reads_bind_ret _ XUInt), Hr|reflexivity].
  - destruct (u256_plain u (proj1 H) (proj2 H)) as [Hw Hr]. exists (u_data u), (XUInt u).
    split; [exact Hw|]. split; [apply (reads_bind_ret _ XUInt), Hr|reflexivity].
  - destruct (hashes_roundtrip l (proj1 H) (proj2 H)) as (enc & Hw & Hr). exists enc, (XTexts (map (map lower) l)).
    split; [exact Hw|]. split; [apply (reads_bind_ret _ XTexts), Hr|reflexivity].
  - destruct H as (Hm & Hx & Hf).
    destruct (array_roundtrip UInt256_klass eq l max) as (enc & l' & Hw & Hr & Heq); [|exact Hm|exact Hx|].
    { rewrite Forall_forall in Hf. intros x Hin. destruct (Hf x Hin) as [H1 H2].
      destruct (u256_klass_item x H1 H2) as [Hw Hr]. exists (u_data x), x. split; [exact Hw|]. split; [exact Hr|reflexivity]. }
    assert (l = l') as <-. { clear -Heq. induction Heq as [|a b l l' E H IH]; [reflexivity|]. rewrite E, IH. reflexivity. }
    exists enc, (XUInts l). split; [exact Hw|]. split; [apply (reads_bind_ret _ XUInts), Hr|reflexivity].
Qed.

Lemma message_ok m : Forall carriable m -> exists enc out,
  writes (write_message m) tt enc /\ reads (read_message (map fst m)) enc out /\ Forall2 comes_back m out.
Proof.
  induction 1 as [|kv m Hk Hm (enc2 & out & Hw2 & Hr2 & Hf)].
  - exists [], []. split; [apply writes_ret|]. split; [apply reads_ret|constructor].
  - destruct (item_ok kv Hk) as (enc1 & y & Hw1 & Hr1 & Hc). exists (enc1 ++ enc2), (y :: out). cbn [write_message read_message map]. split.
    + eapply writes_bind; [exact Hw1|exact Hw2].
    + split; [|constructor; assumption]. eapply reads_bind; [exact Hr1|]. apply (reads_bind_ret _ (fun t => y :: t)), Hr2.
Qed.

(** ** histories of reads *)
Lemma only_reads_ret {A} (a : A) : only_reads (iret a).
Proof. intros s. split; [reflexivity|]. cbn. lia. Qed.
Lemma only_reads_lift {A} (a : res A) : only_reads (ilift a).
Proof. intros s. split; [reflexivity|]. cbn. lia. Qed.
Lemma only_reads_bind {A B} (m : io A) (f : A -> io B) : only_reads m -> (forall a, only_reads (f a)) -> only_reads (ibind m f).
Proof.
  intros Hm Hf s. unfold ibind. specialize (Hm s). destruct (m s) as [[a|e] s'] eqn:E; cbn [snd] in *; [|exact Hm].
  specialize (Hf a s'). destruct Hm as [H1 H2], Hf as [H3 H4]. rewrite H3. split; [exact H1|]. rewrite H1 in H4. lia.
Qed.
Lemma only_reads_try {A} (m : io A) h : only_reads m -> (forall e, only_reads (h e)) -> only_reads (itry m h).
Proof.
  intros Hm Hf s. unfold itry. specialize (Hm s). destruct (m s) as [[a|e] s'] eqn:E; cbn [snd] in *; [exact Hm|].
  specialize (Hf e s'). destruct Hm as [H1 H2], Hf as [H3 H4]. rewrite H3. split; [exact H1|]. rewrite H1 in H4. lia.
Qed.
Lemma only_reads_bio n : only_reads (bio_read n).
Proof.
  intros s. unfold bio_read. destruct (_ || _); cbn [snd content position]; [split; [reflexivity|lia]|]. split; [reflexivity|].
  assert (length (skipn (position s) (content s)) = length (content s) - position s)%nat as Hl by apply skipn_length.
  destruct (n <? 0); [lia|]. unfold zlen. lia.
Qed.
Lemma only_reads_raise {A} e : only_reads (@iraise A e).
Proof. intros s. split; [reflexivity|]. cbn. lia. Qed.
Lemma only_reads_repeat {A} (m : io A) n : only_reads m -> only_reads (io_repeat n m).
Proof.
  intros H. induction n as [|n IH]; [apply only_reads_ret|]. cbn [io_repeat]. apply only_reads_bind; [exact H|].
  intros a. apply only_reads_bind; [exact IH|]. intros l. apply only_reads_ret.
Qed.
Lemma only_reads_loop {A} (m : io A) n : only_reads m -> only_reads (deserialize_loop m n).
Proof.
  intros H. induction n as [|n IH]; [apply only_reads_ret|]. intros s. cbn [deserialize_loop].
  specialize (H s). destruct (m s) as [[a|e] s'] eqn:E; cbn [snd] in *; [|exact H].
  specialize (IH s'). destruct (deserialize_loop m n s') as [[l|e] s''] eqn:E2; cbn [snd] in *;
  destruct H as [H1 H2], IH as [H3 H4]; rewrite H3; (split; [exact H1|]); rewrite H1 in H4; lia.
Qed.

Ltac solve_reads :=
  repeat first
    [ apply only_reads_ret | apply only_reads_lift | apply only_reads_raise | apply only_reads_bio
    | apply only_reads_bind; [|intros ?] | apply only_reads_try; [|intros ?]
    | apply only_reads_repeat | apply only_reads_loop ].

Lemma ReadVarInt_only max : only_reads (ReadVarInt max).
Proof.
  unfold ReadVarInt, ReadByte, ReadUInt16, ReadUInt32, ReadUInt64, unpack_int. apply only_reads_bind.
  - apply only_reads_try; [|intros ?; apply only_reads_ret]. apply only_reads_bind; [apply only_reads_bio|].
    intros [|x [|y l]]; solve_reads.
  - intros fb. destruct (fb =? 0); [solve_reads|]. apply only_reads_bind.
    + destruct (fb =? 253); [solve_reads|]. destruct (fb =? 254); [solve_reads|]. destruct (fb =? 255); solve_reads.
    + intros v. destruct (v >? max); solve_reads.
Qed.

Lemma do_read_only c : call_well_behaved c -> only_reads (do_read c).
Proof.
  destruct c; cbn [call_well_behaved do_read]; intros Hk; (apply only_reads_bind; [|intros; apply only_reads_ret]).
  - rewrite read_int_eq. unfold unpack_int. solve_reads.
  - unfold ReadByte. apply only_reads_try; [|intros ?; apply only_reads_ret]. apply only_reads_bind; [apply only_reads_bio|].
    intros [|x [|y l]]; solve_reads.
  - apply only_reads_bio.
  - apply only_reads_bio.
  - unfold SafeReadBytes. apply only_reads_bind; [apply only_reads_bio|]. intros d. destruct (zlen d <? n); solve_reads.
  - unfold ReadBool. solve_reads.
  - unfold ReadChar. solve_reads.
  - apply ReadVarInt_only.
  - unfold ReadVarBytes. apply only_reads_bind; [apply ReadVarInt_only|]. intros; apply only_reads_bio.
  - unfold ReadString, ReadUInt8, unpack_int, unpack_s. solve_reads.
  - unfold ReadVarString, unpack_s. apply only_reads_bind; [apply ReadVarInt_only|]. intros; solve_reads.
  - unfold ReadFixedString, ReadBytes. solve_reads.
  - unfold ReadUInt160, ReadBytes. solve_reads.
  - unfold ReadUInt256, ReadBytes. solve_reads.
  - unfold uint_Deserialize, ReadBytes. solve_reads.
  - unfold Read2000256List. apply only_reads_repeat. unfold read_hex64, ReadBytes. solve_reads.
  - unfold ReadHashes. apply only_reads_bind; [apply ReadVarInt_only|]. intros; apply only_reads_repeat. unfold read_hash, ReadBytes. solve_reads.
  - unfold ReadFixed8, ReadInt64, unpack_int. solve_reads.
  - unfold ReadSerializableArray. apply only_reads_bind; [apply ReadVarInt_only|]. intros; apply only_reads_loop, Hk.
Qed.

Lemma after_reads_ok l s : Forall call_well_behaved l ->
  content (after_reads l s) = content s /\
  (position s <= position (after_reads l s) <= Nat.max (position s) (length (content s)))%nat.
Proof.
  intros H. revert s. induction H as [|c l Hc Hl IH]; intros s; [split; [reflexivity|cbn; lia]|]. cbn [after_reads fold_left].
  change (fold_left _ l ?t) with (after_reads l t). destruct (do_read_only c Hc s) as [H1 H2].
  destruct (IH (snd (do_read c s))) as [H3 H4]. rewrite H3. split; [exact H1|]. rewrite H1 in H4. lia.
Qed.

(** ** histories of writes *)
Lemma app_ret {A} (a : A) : only_appends (iret a).
Proof. intros pre. exists []. rewrite app_nil_r. reflexivity. Qed.
Lemma app_raise {A} e : only_appends (@iraise A e).
Proof. intros pre. exists []. rewrite app_nil_r. reflexivity. Qed.
Lemma app_lift {A} (a : res A) : only_appends (ilift a).
Proof. intros pre. exists []. rewrite app_nil_r. reflexivity. Qed.
Lemma app_bind {A B} (m : io A) (f : A -> io B) : only_appends m -> (forall a, only_appends (f a)) -> only_appends (ibind m f).
Proof.
  intros Hm Hf pre. destruct (Hm pre) as [d Hd]. unfold ibind. destruct (m (at_end pre)) as [[a|e] s'] eqn:E; cbn [snd] in Hd; subst s'.
  - destruct (Hf a (pre ++ d)) as [d2 H2]. exists (d ++ d2). rewrite H2, app_assoc. reflexivity.
  - exists d. reflexivity.
Qed.
Lemma app_write b : only_appends (bio_write b).
Proof. intros pre. exists b. rewrite bio_write_end. reflexivity. Qed.
Lemma app_stream_write v : only_appends (stream_write v).
Proof. destruct v; first [apply app_write|apply app_raise]. Qed.
Lemma app_WriteByte v : only_appends (WriteByte v).
Proof.
  destruct v; cbn [WriteByte]; try apply app_ret.
  - apply app_bind; [apply app_write|intros; apply app_ret].
  - apply app_bind; [apply app_lift|]. intros. apply app_bind; [apply app_write|intros; apply app_ret].
  - destruct (_ && _); [|apply app_raise]. apply app_bind; [apply app_write|intros; apply app_ret].
Qed.
Lemma app_WriteBytes v u : only_appends (WriteBytes v u).
Proof.
  unfold WriteBytes. destruct u; [|apply app_stream_write]. destruct (unhexlify v) as [b|[]]; first [apply app_write|apply app_stream_write|apply app_raise].
Qed.
Lemma app_pack e sg n z : only_appends (pack_int e sg n z).
Proof. unfold pack_int. apply app_bind; [apply app_lift|]. intros; apply app_WriteBytes. Qed.
Lemma app_WriteVarInt v e : only_appends (WriteVarInt v e).
Proof.
  unfold WriteVarInt, WriteUInt16, WriteUInt32, WriteUInt64. destruct (as_int v) as [z|]; [|apply app_raise].
  destruct (z <? 0); [apply app_raise|]. destruct (z <? 253); [apply app_bind; [apply app_WriteByte|intros; apply app_ret]|].
  destruct (z <=? 65535); [|destruct (z <=? 4294967295)];
  (apply app_bind; [apply app_WriteByte|intros; apply app_bind; [apply app_pack|intros; apply app_ret]]).
Qed.
Lemma app_Serialize u : only_appends (uint_Serialize u).
Proof. apply app_bind; [apply app_WriteBytes|intros; apply app_ret]. Qed.
Lemma app_all {A} (ser : A -> io unit) l : (forall x, only_appends (ser x)) -> only_appends (serialize_all ser l).
Proof. intros H. induction l as [|x l IH]; [apply app_ret|]. cbn [serialize_all]. apply app_bind; [apply H|intros; exact IH]. Qed.
Lemma app_zeros n : only_appends (write_zeros n).
Proof. induction n as [|n IH]; [apply app_ret|]. cbn [write_zeros]. apply app_bind; [apply app_WriteByte|intros; exact IH]. Qed.
Lemma app_wrh x : only_appends (write_reversed_hex x).
Proof. apply app_bind; [apply app_lift|]. intros. apply app_bind; [apply app_WriteBytes|intros; apply app_ret]. Qed.

Lemma do_write_appends c : write_well_behaved c -> only_appends (do_write c).
Proof.
  destruct c; cbn [write_well_behaved do_write]; intros Hk;
  try (apply app_bind; [|intros; apply app_ret]).
  - rewrite write_int_eq. apply app_pack.
  - apply app_WriteByte.
  - apply app_WriteBytes.
  - apply app_bind; [apply app_lift|intros; apply app_WriteBytes].
  - apply app_WriteBytes.
  - apply app_WriteVarInt.
  - apply app_bind; [apply app_lift|]. intros. apply app_bind; [apply app_WriteVarInt|intros; apply app_WriteBytes].
  - unfold WriteVarString. apply app_bind; [apply app_lift|]. intros w. apply app_bind; [apply app_lift|]. intros n.
    destruct w; try apply app_raise;
    (apply app_bind; [apply app_WriteVarInt|intros; apply app_bind; [apply app_WriteBytes|intros; apply app_ret]]).
  - unfold WriteFixedString. apply app_bind; [apply app_lift|]. intros b. cbv zeta. destruct (zlen b >? n); [apply app_raise|].
    apply app_bind; [apply app_WriteBytes|intros; apply app_zeros].
  - unfold WriteUInt160. destruct u as [u|]; [|apply app_raise]. destruct (u_cls u); try apply app_raise. apply app_Serialize.
  - unfold WriteUInt256. destruct u as [u|]; [|apply app_raise]. destruct (u_cls u); try apply app_raise. apply app_Serialize.
  - apply app_WriteBytes.
  - apply app_all, app_wrh.
  - unfold WriteHashes. apply app_bind; [apply app_WriteVarInt|intros; apply app_all, app_wrh].
  - apply app_pack.
  - unfold WriteSerializableArray. destruct l as [l|]; [|apply app_WriteByte]. apply app_bind; [apply app_WriteVarInt|intros; apply app_all, Hk].
Qed.

Lemma after_writes_ok l pre : Forall write_well_behaved l -> exists d, after_writes l (at_end pre) = at_end (pre ++ d).
Proof.
  intros H. revert pre. induction H as [|c l Hc Hl IH]; intros pre; [exists []; rewrite app_nil_r; reflexivity|].
  cbn [after_writes fold_left]. change (fold_left _ l ?t) with (after_writes l t).
  destruct (do_write_appends c Hc pre) as [d1 H1]. rewrite H1. destruct (IH (pre ++ d1)) as [d2 H2].
  exists (d1 ++ d2). rewrite H2, app_assoc. reflexivity.
Qed.
