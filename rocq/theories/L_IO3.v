(** * L_IO3: hash lists, arrays, small items *)
From Coq Require Import Lia ZifyBool ZifyNat ZifyN.
From Verif Require Import M_Py M_UInt M_Writer M_Reader S_IO S_IO2 L_Bytes L_IO L_VarInt L_Hex L_Utf8 L_IO2.
Ltac Zify.zify_post_hook ::= Z.div_mod_to_equations.

(** ** lists of items *)
Lemma serialize_all_writes {A} (ser : A -> io unit) l encs :
  Forall2 (fun x enc => writes (ser x) tt enc) l encs -> writes (serialize_all ser l) tt (concat encs).
Proof.
  induction 1 as [|x enc l encs H1 H2 IH]; [apply writes_ret|]. cbn [serialize_all concat].
  eapply writes_bind; [exact H1|exact IH].
Qed.
Lemma io_repeat_reads {A} (m : io A) l encs :
  Forall2 (fun x enc => reads m enc x) l encs -> reads (io_repeat (length l) m) (concat encs) l.
Proof.
  induction 1 as [|x enc l encs H1 H2 IH]; [apply reads_ret|]. cbn [length io_repeat concat].
  eapply reads_bind; [exact H1|]. apply (reads_bind_ret _ (fun t => x :: t)), IH.
Qed.
Lemma Forall2_exists {A B} (P : A -> B -> Prop) l : (forall x, In x l -> exists y, P x y) -> exists l', Forall2 P l l'.
Proof.
  induction l as [|x l IH]; intros H; [exists []; constructor|].
  destruct (H x (or_introl eq_refl)) as [y Hy]. destruct IH as [l' Hl']; [intros z Hz; apply H; right; exact Hz|].
  exists (y :: l'). constructor; assumption.
Qed.

Lemma F2_length {A B} (P : A -> B -> Prop) l l' : Forall2 P l l' -> length l = length l'.
Proof. induction 1; cbn; congruence. Qed.

(** ** hashes *)
Lemma hash_text_wire t : hash_text t -> exists d, wire_bytes t d /\ length d = 32%nat.
Proof.
  intros [Hl Hf]. assert (Ht : hex_text t) by (split; [rewrite Hl; exists 32%nat; reflexivity|exact Hf]).
  apply hex_text_denotes in Ht as (d & Hd & _). exists (rev d). unfold wire_bytes. rewrite rev_involutive, rev_length.
  split; [exact Hd|]. apply hex_denotes_length in Hd. lia.
Qed.
Lemma wire_unhex t d : wire_bytes t d -> unhexlify (VStr t) = Ok (rev d).
Proof.
  unfold wire_bytes. intros H. unfold unhexlify. rewrite (hex_text_ascii _ (hex_denotes_text _ _ H)).
  apply unhex_denotes in H. rewrite H. reflexivity.
Qed.
Lemma write_reversed_hex_ok t d : wire_bytes t d -> length d = 32%nat ->
  exists enc, writes (write_reversed_hex (VStr t)) tt enc /\
    ((~ all_hex_digits d /\ enc = d) \/ (all_hex_digits d /\ length enc = 16%nat)).
Proof.
  intros Hw Hl. unfold write_reversed_hex. rewrite (wire_unhex _ _ Hw).
  destruct (all_hex_digits_dec d) as [Hh|Hn].
  - assert (Ht := Hh). rewrite <- hex_text_all in Ht by (rewrite Hl; apply even32).
    apply hex_text_denotes in Ht as (q & Hq & _). exists q. split.
    + eapply writes_lift; [reflexivity|]. rewrite rev_involutive. eapply writes_seq_ret. rewrite WriteBytes_ba_eq. apply WriteBytes_hex, Hq.
    + right. split; [exact Hh|]. apply hex_denotes_length in Hq. rewrite map_length in Hq. lia.
  - exists d. split; [|left; split; [exact Hn|reflexivity]].
    eapply writes_lift; [reflexivity|]. rewrite rev_involutive. eapply writes_seq_ret. rewrite WriteBytes_ba_eq.
    apply WriteBytes_nohex. rewrite hex_text_all by (rewrite Hl; apply even32). exact Hn.
Qed.
Lemma write_reversed_hex_plain t d : wire_bytes t d -> length d = 32%nat -> ~ all_hex_digits d ->
  writes (write_reversed_hex (VStr t)) tt d.
Proof.
  intros Hw Hl Hn. destruct (write_reversed_hex_ok t d Hw Hl) as (enc & He & [[_ ->]|[Hh _]]); [exact He|contradiction].
Qed.
Lemma read_hash_reads t d : wire_bytes t d -> length d = 32%nat -> reads read_hash d (map lower t).
Proof.
  intros Hw Hl. unfold read_hash. unfold wire_bytes, hex_denotes in Hw. rewrite Hw.
  apply (reads_bind_ret _ (fun ba => hex (rev ba))). apply bio_read_exact_n; [unfold zlen; lia|unfold maxsize; lia].
Qed.

Lemma hashes_roundtrip l : zlen l <= maxsize ->
  Forall (fun t => hash_text t /\ forall d, wire_bytes t d -> ~ all_hex_digits d) l ->
  exists enc, writes (WriteHashes (map VStr l)) tt enc /\ reads ReadHashes enc (map (map lower) l).
Proof.
  intros Hlen H.
  assert (exists ds, Forall2 (fun t d => wire_bytes t d /\ length d = 32%nat /\ ~ all_hex_digits d) l ds) as [ds Hds].
  { apply Forall2_exists. rewrite Forall_forall in H. intros t Ht. destruct (H t Ht) as [H1 H2].
    destruct (hash_text_wire t H1) as (d & Hd & Hl). exists d. auto. }
  pose proof maxsize_lt. pose proof (zlen_nonneg l).
  assert (Hv : varint LE (zlen l) (varenc LE (zlen l))) by (apply varenc_spec; lia).
  exists (varenc LE (zlen l) ++ concat ds). split.
  - unfold WriteHashes. rewrite zlen_map. eapply writes_bind; [apply WriteVarInt_writes; lia|].
    apply serialize_all_writes. clear -Hds. induction Hds as [|t d l ds (H1 & H2 & H3) Hds IH]; cbn [map]; [constructor|constructor; [|exact IH]].
    apply write_reversed_hex_plain; assumption.
  - unfold ReadHashes. eapply reads_bind; [apply ReadVarInt_reads; [exact Hv|right; exact Hlen]|].
    assert (EL : Z.to_nat (zlen l) = length (map (map lower) l)) by (rewrite map_length; apply Nat2Z.id). rewrite EL.
    apply io_repeat_reads. clear -Hds. induction Hds as [|t d l ds (H1 & H2 & H3) Hds IH]; cbn [map]; [constructor|constructor; [|exact IH]].
    apply read_hash_reads; assumption.
Qed.

Lemma unhexlify_bad_str t : ~ hex_text t -> exists e, unhexlify (VStr t) = Raise e.
Proof.
  intros H. apply not_hex_text in H. unfold unhexlify. rewrite H. destruct (forallb _ t); eexists; reflexivity.
Qed.

Lemma serialize_all_raises {A} (ser : A -> io unit) l s bad :
  (forall x s, exists r s', ser x s = (r, s')) -> In bad l -> (forall s, exists e s', ser bad s = (Raise e, s')) ->
  exists e s', serialize_all ser l s = (Raise e, s').
Proof.
  intros Ht Hin Hb. revert s. induction l as [|x l IH]; intros s; [destruct Hin|].
  cbn [serialize_all]. unfold ibind. destruct Hin as [->|Hin].
  - destruct (Hb s) as (e & s' & E). rewrite E. eauto.
  - destruct (ser x s) as [[[]|e] s'] eqn:E; [apply IH, Hin|eauto].
Qed.

Lemma hashes_malformed l t s : In t l -> ~ hex_text t -> exists e s', WriteHashes (map VStr l) s = (Raise e, s').
Proof.
  intros Hin Ht. unfold WriteHashes, ibind. destruct (WriteVarInt _ _ s) as [[o|e] s']; [|eauto].
  eapply serialize_all_raises; [|apply in_map, Hin|].
  - intros x st. destruct (write_reversed_hex x st) as [r s'']. eauto.
  - intros st. destruct (unhexlify_bad_str t Ht) as [e E]. unfold write_reversed_hex. rewrite E. unfold ibind, ilift. eauto.
Qed.

(** C15 *)
Lemma read_hash_total s : exists t s', read_hash s = (Ok t, s').
Proof. unfold read_hash, ibind. rewrite ReadBytes_any by (unfold maxsize; lia). unfold iret. eauto. Qed.
Lemma io_repeat_total {A} (m : io A) : (forall s, exists t s', m s = (Ok t, s')) ->
  forall n s, exists l s', io_repeat n m s = (Ok l, s') /\ length l = n.
Proof.
  intros Hm. induction n as [|n IH]; intros s; [exists [], s; split; reflexivity|].
  cbn [io_repeat]. unfold ibind. destruct (Hm s) as (t & s1 & E). rewrite E.
  destruct (IH s1) as (l & s2 & E2 & Hl). rewrite E2. exists (t :: l), s2. split; [reflexivity|cbn; lia].
Qed.
Lemma ReadHashes_count s n p rest : varint LE n p -> remaining s = p ++ rest -> n <= maxsize ->
  exists l s', ReadHashes s = (Ok l, s') /\ zlen l = n.
Proof.
  intros Hv Hs Hn. pose proof (varint_range _ _ _ Hv). unfold ReadHashes, ibind.
  rewrite (ReadVarInt_enc _ _ _ _ _ Hv Hs). replace ((n =? 0) || (n <=? maxsize)) with true by lia.
  destruct (io_repeat_total _ read_hash_total (Z.to_nat n) (advance (length p) s)) as (l & s' & E & Hl).
  exists l, s'. split; [exact E|]. unfold zlen. lia.
Qed.
Lemma read_hash_eof s : remaining s = [] -> read_hash s = (Ok [], s).
Proof.
  intros H. unfold read_hash, ibind. rewrite ReadBytes_any by (unfold maxsize; lia). rewrite H, firstn_nil. cbn.
  unfold iret. rewrite advance_0. reflexivity.
Qed.
Lemma io_repeat_eof n s : remaining s = [] -> io_repeat n read_hash s = (Ok (repeat [] n), s).
Proof.
  intros H. induction n as [|n IH]; [reflexivity|]. cbn [io_repeat repeat]. unfold ibind.
  rewrite read_hash_eof by exact H. rewrite IH. reflexivity.
Qed.
Lemma ReadHashes_amplify n : 0 <= n <= maxsize -> exists p s', (length p <= 9)%nat /\
  ReadHashes (mkStream p 0) = (Ok (repeat [] (Z.to_nat n)), s').
Proof.
  intros H. pose proof maxsize_lt. assert (Hv : varint LE n (varenc LE n)) by (apply varenc_spec; lia).
  exists (varenc LE n), (advance (length (varenc LE n)) (mkStream (varenc LE n) 0)). split.
  - destruct Hv; cbn [length]; lia.
  - assert (Hs : remaining (mkStream (varenc LE n) 0) = varenc LE n ++ []) by (rewrite app_nil_r; reflexivity).
    unfold ReadHashes, ibind. rewrite (ReadVarInt_enc _ _ _ _ _ Hv Hs).
    replace ((n =? 0) || (n <=? maxsize)) with true by lia.
    rewrite io_repeat_eof; [reflexivity|]. apply remaining_advance_app with (b := []). exact Hs.
Qed.

(** C16 *)
Lemma read_hex64_ok s t s' : read_hex64 s = (Ok t, s') ->
  s' = advance (Nat.min 64 (length (remaining s))) s /\ (remaining s = [] -> t = []).
Proof.
  unfold read_hex64, ibind. rewrite ReadBytes_any by (unfold maxsize; lia). change (Z.to_nat 64) with 64%nat.
  unfold ilift. destruct (unhexlify _) as [ba|e] eqn:E; [|discriminate]. unfold iret. intros H.
  assert (s' = advance (length (firstn 64 (remaining s))) s) as -> by congruence.
  assert (t = map z2b (hex (rev ba))) as -> by congruence. clear H.
  split; [f_equal; apply firstn_length|]. intros Hr. rewrite Hr in E. cbn in E. injection E as <-. reflexivity.
Qed.
Lemma io_repeat64_last n s l s' : io_repeat n read_hex64 s = (Ok l, s') -> (length (remaining s) <= 64 * n)%nat ->
  length l = n /\ remaining s' = [].
Proof.
  revert s l. induction n as [|n IH]; intros s l H Hr.
  - cbn in H. injection H as <- <-. split; [reflexivity|]. destruct (remaining s); [reflexivity|cbn in Hr; lia].
  - cbn [io_repeat] in H. unfold ibind in H. destruct (read_hex64 s) as [[t|e] s1] eqn:E; [|discriminate].
    apply read_hex64_ok in E as [-> _].
    destruct (io_repeat n read_hex64 _) as [[r|e] s2] eqn:E2; [|discriminate]. cbn in H. injection H as <- <-.
    apply IH in E2 as [Hl Hs].
    + split; [cbn [length]; lia|exact Hs].
    + rewrite remaining_advance, skipn_length. lia.
Qed.
Lemma io_repeat_split {A} (m : io A) a b s : io_repeat (a + b) m s =
  (x <-- io_repeat a m ; (y <-- io_repeat b m ; iret (x ++ y))) s.
Proof.
  revert s. induction a as [|a IH]; intros s; cbn [Nat.add io_repeat].
  - unfold ibind, iret. destruct (io_repeat b m s) as [[y|e] s']; reflexivity.
  - unfold ibind, iret in *. destruct (m s) as [[x|e] s']; [|reflexivity]. rewrite IH.
    destruct (io_repeat a m s') as [[y|e] s'']; [|reflexivity].
    destruct (io_repeat b m s'') as [[z|e] s3]; reflexivity.
Qed.

Lemma writes_2000 l : Forall hash_text l -> exists enc, (length enc <= 32 * length l)%nat /\
  writes (Write2000256List (map VStr l)) tt enc.
Proof.
  intros H. assert (exists encs, Forall2 (fun t enc => writes (write_reversed_hex (VStr t)) tt enc /\ (length enc <= 32)%nat) l encs) as [encs He].
  { apply Forall2_exists. rewrite Forall_forall in H. intros t Ht. destruct (hash_text_wire t (H t Ht)) as (d & Hd & Hl).
    destruct (write_reversed_hex_ok t d Hd Hl) as (enc & Hw & Hc). exists enc. split; [exact Hw|]. destruct Hc as [[_ ->]|[_ ->]]; lia. }
  exists (concat encs). split.
  - clear H. induction He as [|t enc l encs [_ H1] He IH]; cbn [concat length]; [lia|]. rewrite app_length. lia.
  - unfold Write2000256List. apply serialize_all_writes. clear H. induction He as [|t enc l encs [H1 _] He IH]; cbn [map]; constructor; assumption.
Qed.

Lemma list2000_never l pre : length l = 2000%nat -> Forall hash_text l ->
  exists s1, Write2000256List (map VStr l) (at_end pre) = (Ok tt, s1) /\
  forall r s2, Read2000256List (mkStream (content s1) (length pre)) = (Ok r, s2) ->
    map (map b2z) r <> l /\ map (map b2z) r <> map (map lower) l.
Proof.
  intros Hl Hf. destruct (writes_2000 l Hf) as (enc & He & Hw). exists (at_end (pre ++ enc)). split; [apply Hw|].
  intros r s2 Hr. unfold Read2000256List in Hr.
  replace 2000%nat with (1999 + 1)%nat in Hr by reflexivity. rewrite io_repeat_split in Hr. unfold ibind in Hr.
  destruct (io_repeat 1999 read_hex64 _) as [[x|e] s3] eqn:E; [|discriminate].
  pose proof E as E'. apply io_repeat64_last in E' as [Hx H3]; [|rewrite remaining_reopen; lia].
  cbn [io_repeat] in Hr. unfold ibind in Hr. destruct (read_hex64 s3) as [[t|e] s4] eqn:E4; [|discriminate].
  apply read_hex64_ok in E4 as [_ Ht]. specialize (Ht H3). subst t. cbn in Hr. injection Hr as <- _.
  assert (Hlast : forall f : pystr -> pystr, (forall t, length (f t) = length t) -> map (map b2z) (x ++ [[]]) <> map f l).
  { intros f Hfl Hc. assert (Hn : nth 1999 (map (map b2z) (x ++ [[]])) [0] = []).
    { rewrite map_app. cbn [map]. rewrite app_nth2; rewrite map_length, Hx; [|lia]. rewrite Nat.sub_diag. reflexivity. }
    rewrite Hc in Hn. rewrite Forall_forall in Hf.
    assert (Hi : In [] (map f l)) by (rewrite <- Hn; apply nth_In; rewrite map_length; lia).
    apply in_map_iff in Hi as (t & Ht & Hi). destruct (Hf t Hi) as [H64 _].
    rewrite <- (Hfl t), Ht in H64. discriminate. }
  split.
  - rewrite <- (map_id l). apply (Hlast (fun t => t)). reflexivity.
  - apply Hlast. intros t. apply map_length.
Qed.

(** ** arrays of objects *)
Lemma deserialize_loop_reads {A} (d : io A) l encs :
  Forall2 (fun x enc => reads d enc x) l encs -> reads (deserialize_loop d (length l)) (concat encs) l.
Proof.
  induction 1 as [|x enc l encs H1 H2 IH]; [apply reads_ret|]. intros s rest Hs. cbn [length concat deserialize_loop] in *.
  rewrite <- app_assoc in Hs. rewrite (H1 _ _ Hs). pose proof (remaining_advance_app _ _ _ Hs) as Hr.
  rewrite (IH _ _ Hr), advance_advance, app_length. reflexivity.
Qed.

Lemma array_roundtrip (k : klass) (R : k_obj k -> k_obj k -> Prop) l max :
  (forall x, In x l -> exists enc y, writes (k_ser k x) tt enc /\ reads (k_deser k (k_new k)) enc y /\ R x y) ->
  zlen l <= max -> zlen l < 2 ^ 64 ->
  exists enc l', writes (WriteSerializableArray k (Some l)) tt enc /\
                 reads (ReadSerializableArray k max) enc l' /\ Forall2 R l l'.
Proof.
  intros H Hm Hn. pose proof (zlen_nonneg l).
  assert (exists ps, Forall2 (fun x p => writes (k_ser k x) tt (fst p) /\ reads (k_deser k (k_new k)) (fst p) (snd p) /\ R x (snd p)) l ps) as [ps Hp].
  { apply Forall2_exists. intros x Hx. destruct (H x Hx) as (enc & y & H1). exists (enc, y). exact H1. }
  assert (Hv : varint LE (zlen l) (varenc LE (zlen l))) by (apply varenc_spec; lia).
  exists (varenc LE (zlen l) ++ concat (map fst ps)), (map snd ps). split; [|split].
  - cbn [WriteSerializableArray]. eapply writes_bind; [apply WriteVarInt_writes; lia|].
    apply serialize_all_writes. clear -Hp. induction Hp as [|x p l ps (H1 & H2 & H3) Hp IH]; cbn [map]; constructor; assumption.
  - unfold ReadSerializableArray. eapply reads_bind; [apply ReadVarInt_reads; [exact Hv|right; exact Hm]|].
    assert (EL : Z.to_nat (zlen l) = length (map snd ps)) by (rewrite map_length, <- (F2_length _ _ _ Hp); apply Nat2Z.id). rewrite EL.
    apply deserialize_loop_reads. clear -Hp. induction Hp as [|x p l ps (H1 & H2 & H3) Hp IH]; cbn [map]; constructor; assumption.
  - clear -Hp. induction Hp as [|x p l ps (H1 & H2 & H3) Hp IH]; cbn [map]; constructor; assumption.
Qed.

Lemma array_none (k : klass) max : writes (WriteSerializableArray k None) tt [x00] /\ reads (ReadSerializableArray k max) [x00] [].
Proof.
  split; [apply (WriteByte_int 0); lia|]. unfold ReadSerializableArray.
  change [x00] with ([x00] ++ []). eapply reads_bind; [apply (ReadVarInt_reads max 0); [constructor; [lia|reflexivity]|lia]|].
  apply reads_ret.
Qed.

Lemma deserialize_loop_run k n s : exists xs s', deserialize_loop (k_deser k (k_new k)) n s = (Ok xs, s') /\ run_until_bad k s n xs s'.
Proof.
  revert s. induction n as [|n IH]; intros s; [exists [], s; split; [reflexivity|constructor]|].
  cbn [deserialize_loop]. destruct (k_deser k (k_new k) s) as [[x|e] s1] eqn:E.
  - destruct (IH s1) as (xs & s2 & E2 & Hr). rewrite E2. exists (x :: xs), s2. split; [reflexivity|]. eapply run_more; eassumption.
  - exists [], s1. split; [reflexivity|]. eapply run_bad; eassumption.
Qed.
Lemma array_run k max s n p rest : varint LE n p -> remaining s = p ++ rest -> n = 0 \/ n <= max ->
  exists xs s', ReadSerializableArray k max s = (Ok xs, s') /\
    run_until_bad k (advance (length p) s) (Z.to_nat n) xs s'.
Proof.
  intros Hv Hs Hm. unfold ReadSerializableArray, ibind. rewrite (ReadVarInt_enc _ _ _ _ _ Hv Hs).
  replace ((n =? 0) || (n <=? max)) with true by lia. apply deserialize_loop_run.
Qed.
Lemma array_raise_only_count k max s e s' : ReadSerializableArray k max s = (Raise e, s') -> ReadVarInt max s = (Raise e, s').
Proof.
  unfold ReadSerializableArray, ibind. destruct (ReadVarInt max s) as [[n|e1] s1]; [|congruence].
  destruct (deserialize_loop_run k (Z.to_nat n) s1) as (xs & s2 & E & _). rewrite E. discriminate.
Qed.
Lemma ReadVarInt_nonneg max s n t : ReadVarInt max s = (Ok n, t) -> 0 <= n.
Proof.
  destruct (remaining s) as [|b r] eqn:R; [rewrite ReadVarInt_nil by exact R; intros E; injection E; lia|]. rewrite (ReadVarInt_cons _ _ _ _ R).
  destruct (Byte.eqb b x00); [intros E; injection E; lia|]. destruct (_ <? _)%nat; [discriminate|]. destruct (max <? pay_value b r); [discriminate|].
  intros E. injection E as <- _. unfold pay_value. destruct (pay_width b); [apply b2z_range|]. cbn [num]. rewrite num_le_eq. apply le2z_bound.
Qed.
Lemma counted_reads max s n t : ReadVarInt max s = (Ok n, t) -> 0 <= n /\
  (n <= maxsize ->
    ReadVarString max s = (if zlen (remaining t) <? n then (Raise StructError, advance (length (remaining t)) t) else (Ok (firstn (Z.to_nat n) (remaining t)), advance (Z.to_nat n) t)) /\
    ReadVarBytes max s = (Ok (firstn (Z.to_nat n) (remaining t)), advance (length (firstn (Z.to_nat n) (remaining t))) t)) /\
  (maxsize < n -> ReadVarString max s = (Raise OverflowError, t) /\ ReadVarBytes max s = (Raise OverflowError, t)).
Proof.
  intros E. pose proof (ReadVarInt_nonneg _ _ _ _ E) as N. split; [exact N|]. unfold ReadVarString, ReadVarBytes, ibind. rewrite !E. split; intros M.
  - split; [apply unpack_s_any; lia|apply ReadBytes_any; lia].
  - unfold unpack_s, ReadBytes, ibind, bio_read. replace (maxsize <? n) with true by lia. rewrite Bool.orb_true_r. split; reflexivity.
Qed.
Lemma counted_hashes s n t : ReadVarInt maxsize s = (Ok n, t) -> exists l s', ReadHashes s = (Ok l, s') /\ zlen l = n.
Proof.
  intros E. pose proof (ReadVarInt_nonneg _ _ _ _ E) as N. unfold ReadHashes, ibind. rewrite E.
  destruct (io_repeat_total _ read_hash_total (Z.to_nat n) t) as (l & s' & E' & Hl). exists l, s'. split; [exact E'|]. unfold zlen. lia.
Qed.
Lemma counted_array k max s n t : ReadVarInt max s = (Ok n, t) -> exists xs s', ReadSerializableArray k max s = (Ok xs, s') /\ run_until_bad k t (Z.to_nat n) xs s'.
Proof. intros E. unfold ReadSerializableArray, ibind. rewrite E. apply deserialize_loop_run. Qed.
Lemma run_prefix k items encs : Forall2 (fun x enc => reads (k_deser k (k_new k)) enc x) items encs ->
  forall s rest n, remaining s = concat encs ++ rest -> (length items < n)%nat ->
  (forall t, remaining t = rest -> exists e t', k_deser k (k_new k) t = (Raise e, t')) ->
  exists s', deserialize_loop (k_deser k (k_new k)) n s = (Ok items, s').
Proof.
  induction 1 as [|x enc items encs H1 H2 IH]; intros s rest n Hs Hn Hb.
  - destruct n as [|n]; [cbn in Hn; lia|]. cbn in Hs. destruct (Hb s Hs) as (e & t' & E). cbn [deserialize_loop]. rewrite E. eauto.
  - destruct n as [|n]; [cbn in Hn; lia|]. cbn [concat] in Hs. rewrite <- app_assoc in Hs.
    cbn [deserialize_loop]. rewrite (H1 _ _ Hs).
    destruct (IH (advance (length enc) s) rest n) as [s' E]; [apply remaining_advance_app, Hs|cbn in Hn; lia|exact Hb|].
    rewrite E. eauto.
Qed.
Lemma array_cut k max s n p items encs rest : varint LE n p -> n <= max ->
  remaining s = p ++ concat encs ++ rest -> zlen items < n ->
  Forall2 (fun x enc => reads (k_deser k (k_new k)) enc x) items encs ->
  (forall t, remaining t = rest -> exists e t', k_deser k (k_new k) t = (Raise e, t')) ->
  exists s', ReadSerializableArray k max s = (Ok items, s').
Proof.
  intros Hv Hm Hs Hn Hi Hb. unfold ReadSerializableArray, ibind. rewrite (ReadVarInt_enc _ _ _ _ _ Hv Hs).
  replace ((n =? 0) || (n <=? max)) with true by lia.
  eapply run_prefix; [exact Hi|apply remaining_advance_app, Hs|unfold zlen in Hn; lia|exact Hb].
Qed.

(** ** bytes, chars, bools *)
Lemma WriteBool_writes v : writes (WriteBool v) 1 [if truthy v then x01 else x00].
Proof. apply bio_write_end. Qed.
Lemma read1_reads {A} (f : bytes -> res A) b a : f [b] = Ok a -> reads (x <-- bio_read 1 ; ilift (f x)) [b] a.
Proof. intros H. eapply reads_lift; [|exact H]. apply bio_read_exact_n; [reflexivity|unfold maxsize; lia]. Qed.
Lemma ReadBool_reads b : reads ReadBool [b] (negb (b2z b =? 0)).
Proof. apply read1_reads. reflexivity. Qed.
Lemma ReadChar_reads b : reads ReadChar [b] [b].
Proof. apply read1_reads. reflexivity. Qed.
Lemma ReadByte_reads b : reads ReadByte [b] (b2z b).
Proof. intros s rest H. apply (ReadByte_cons s b rest H). Qed.
Lemma ReadByte_raw_reads b : reads ReadByte_raw [b] [b].
Proof. apply bio_read_exact_n; [reflexivity|unfold maxsize; lia]. Qed.
Lemma WriteChar_writes b : writes (WriteChar (VBytes [b])) 1 [b].
Proof. eapply writes_lift; [reflexivity|]. apply (bio_write_end [b]). Qed.
Lemma WriteChar_bad v : (forall b, v <> VBytes [b]) -> refuses (WriteChar v) StructError.
Proof.
  intros H. apply refuses_lift. unfold struct_pack_char. destruct v as [[|b [|c r]]| | | | | | | ]; try reflexivity. destruct (H b eq_refl).
Qed.
Lemma read1_short {A} (f : bytes -> res A) e s : remaining s = [] -> f [] = Raise e ->
  (x <-- bio_read 1 ; ilift (f x)) s = (Raise e, s).
Proof.
  intros H Hf. unfold ibind. rewrite bio_read_spec by (unfold maxsize; lia). rewrite H, firstn_nil. unfold ilift. cbn [length].
  rewrite Hf, advance_0. reflexivity.
Qed.

(** ** int subclasses *)
Lemma dropped_byte z b : writes (WriteByte (VBig z)) tt [] /\ writes (WriteByte (VBool b)) tt [].
Proof. split; apply writes_ret. Qed.
Lemma dropped_varint e z b : (0 <= z < 253 -> writes (WriteVarInt (VBig z) e) None []) /\ writes (WriteVarInt (VBool b) e) None [].
Proof.
  split; [intros H|]; unfold WriteVarInt; cbn [as_int].
  - replace (z <? 0) with false by lia. replace (z <? 253) with true by lia. eapply writes_seq_ret, writes_ret.
  - destruct b; cbn [z_of_bool]; eapply writes_seq_ret, writes_ret.
Qed.
Lemma big_varint_same e z : 253 <= z -> WriteVarInt (VBig z) e = WriteVarInt (VInt z) e.
Proof.
  intros H. unfold WriteVarInt. cbn [as_int]. replace (z <? 0) with false by lia. replace (z <? 253) with false by lia. reflexivity.
Qed.

(** ** swap32 *)
Lemma swap32_spec i : 0 <= i < 2 ^ 32 -> exists d j, length d = 4%nat /\ num_be d = i /\ swap32 i = Ok j /\ num_le d = j /\ 0 <= j < 2 ^ 32.
Proof.
  intros H. exists (z2bytes BE 4 i), (bytes2z LE (z2bytes BE 4 i)). split; [apply z2bytes_length|].
  split; [apply (num_z2bytes BE); exact H|]. split; [|split].
  - unfold swap32, struct_pack_int. rewrite fits_u; [|lia|exact H]. cbn [rbind].
    unfold struct_unpack_int, zlen. rewrite z2bytes_length. rewrite Z.eqb_refl. reflexivity.
  - rewrite <- num_eq. reflexivity.
  - pose proof (bytes2z_bound LE (z2bytes BE 4 i)) as B. unfold zlen in B. rewrite z2bytes_length in B. exact B.
Qed.
Lemma swap32_bad i : ~ (0 <= i < 2 ^ 32) -> swap32 i = Raise StructError.
Proof.
  intros H. unfold swap32, struct_pack_int. replace (int_fits false 4 i) with false; [reflexivity|].
  unfold int_fits, int_min, int_max. change (256 ^ Z.of_nat 4) with (2 ^ 32). lia.
Qed.
Lemma num_rev d : num_le (rev d) = num_be d.
Proof. rewrite num_le_eq, num_be_eq. reflexivity. Qed.
Lemma swap32_involutive i j : swap32 i = Ok j -> swap32 j = Ok i.
Proof.
  intros H. assert (Hi : 0 <= i < 2 ^ 32).
  { destruct (Z_le_gt_dec 0 i); [destruct (Z_lt_ge_dec i (2 ^ 32)); [lia|]|]; rewrite swap32_bad in H by lia; discriminate. }
  destruct (swap32_spec i Hi) as (d & j' & Hl & Hd & Hs & Hj & Hr). rewrite Hs in H. injection H as <-.
  destruct (swap32_spec j' Hr) as (q & i' & Hql & Hqd & Hqs & Hqi & Hqr). rewrite Hqs. f_equal.
  assert (q = rev d) as ->.
  { apply (num_inj BE); [rewrite rev_length; lia|]. cbn [num]. rewrite Hqd, <- num_rev, rev_involutive. congruence. }
  rewrite <- Hqi, num_rev. exact Hd.
Qed.

(** ** convert_to_uintN *)
Lemma bits_value_app a c : bits_value (a ++ [c]) = 2 * bits_value a + (c - 48).
Proof. unfold bits_value. rewrite fold_left_app. reflexivity. Qed.
Lemma bits_of_pos_value p : bits_value (bits_of_pos p) = Zpos p.
Proof. induction p as [p IH|p IH|]; cbn [bits_of_pos]; rewrite ?bits_value_app, ?IH; [lia|lia|reflexivity]. Qed.
Lemma bits_of_pos_binary p : binary_text (bits_of_pos p).
Proof.
  unfold binary_text. induction p as [p IH|p IH|]; cbn [bits_of_pos]; [apply Forall_app; split; auto|apply Forall_app; split; auto|auto].
Qed.
Lemma bits_of_pos_length p : Z.of_nat (length (bits_of_pos p)) = Z.log2 (Zpos p) + 1.
Proof.
  induction p as [p IH|p IH|]; cbn [bits_of_pos]; rewrite ?app_length; cbn [length]; [| |reflexivity].
  - rewrite (Pos2Z.inj_xI p), Z.log2_succ_double by lia. lia.
  - rewrite (Pos2Z.inj_xO p), Z.log2_double by lia. lia.
Qed.
Lemma bits_value_bound l : binary_text l -> 0 <= bits_value l < 2 ^ zlen l.
Proof.
  unfold binary_text. intros H. rewrite <- (rev_involutive l) in *. induction (rev l) as [|c r IH]; [cbn; lia|].
  cbn [rev] in *. apply Forall_app in H as [H1 H2]. specialize (IH H1). inversion H2 as [|? ? Hc _]; subst.
  rewrite bits_value_app, zlen_app. change (zlen [c]) with 1. rewrite Z.pow_add_r by (try lia; apply zlen_nonneg). lia.
Qed.
Lemma bits_value_split a b : binary_text b -> bits_value (a ++ b) = bits_value a * 2 ^ zlen b + bits_value b.
Proof.
  intros H. rewrite <- (rev_involutive b) in *. induction (rev b) as [|c r IH].
  - cbn [rev]. rewrite app_nil_r. change (zlen (@nil Z)) with 0. unfold bits_value at 3. cbn [fold_left]. lia.
  - cbn [rev] in *. unfold binary_text in *. apply Forall_app in H as [H1 H2]. specialize (IH H1).
    rewrite app_assoc, !bits_value_app, IH, zlen_app. change (zlen [c]) with 1. rewrite Z.pow_add_r by (try lia; apply zlen_nonneg). lia.
Qed.
Lemma last_n_app {A} n (a b : list A) : length b = n -> last_n n (a ++ b) = b.
Proof. intros H. unfold last_n. rewrite app_length, H. replace (length a + n - n)%nat with (length a) by lia. apply skipn_app_exact. Qed.
Lemma bin_low w v : 0 <= v -> length (last_n w (bin (v + 2 ^ Z.of_nat w))) = w /\
  binary_text (last_n w (bin (v + 2 ^ Z.of_nat w))) /\ bits_value (last_n w (bin (v + 2 ^ Z.of_nat w))) = v mod 2 ^ Z.of_nat w.
Proof.
  intros Hv. set (W := 2 ^ Z.of_nat w). assert (HW : 0 < W) by (apply Z.pow_pos_nonneg; lia).
  destruct (v + W) as [|p|p] eqn:E; [lia| |lia]. cbn [bin].
  set (l := bits_of_pos p). assert (Hlen : (w <= length l)%nat).
  { pose proof (bits_of_pos_length p) as Hl. fold l in Hl.
    assert (Z.of_nat w <= Z.log2 (Zpos p)) by (apply Z.log2_le_pow2; [lia|]; fold W; lia). lia. }
  assert (Hsplit : l = firstn (length l - w) l ++ skipn (length l - w) l) by (symmetry; apply firstn_skipn).
  set (a := firstn (length l - w) l) in *. set (b := skipn (length l - w) l) in *.
  assert (Hb : length b = w) by (unfold b; rewrite skipn_length; lia).
  assert (Hbin : binary_text b).
  { pose proof (bits_of_pos_binary p) as H. fold l in H. rewrite Hsplit in H. apply Forall_app in H. apply H. }
  rewrite Hsplit, app_assoc. rewrite last_n_app by exact Hb. split; [exact Hb|]. split; [exact Hbin|].
  pose proof (bits_of_pos_value p) as Hval. fold l in Hval. rewrite Hsplit, bits_value_split in Hval by exact Hbin.
  pose proof (bits_value_bound b Hbin) as Hbd. unfold zlen in *. rewrite Hb in *. fold W in Hval, Hbd.
  replace v with (bits_value b + (bits_value a - 1) * W) by lia. rewrite Z_mod_plus_full. symmetry. apply Z.mod_small. exact Hbd.
Qed.
