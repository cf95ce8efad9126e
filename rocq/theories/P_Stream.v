(** * P_Stream: C93, C94 *)
From Coq Require Import Lia Floats.SpecFloat.
From Verif Require Import M_Py M_Float M_UInt M_Writer M_Reader M_FloatIO M_ECCurve M_Stream S_IO S_Stream.

Lemma firstn_ge {A} (l : list A) k : (length l <= k)%nat -> firstn k l = l.
Proof. apply firstn_all2. Qed.
Lemma bio_read_len n s b s' : bio_read n s = (Ok b, s') -> 0 <= n -> zlen b <= n.
Proof.
  unfold bio_read. destruct ((n <? - maxsize - 1) || (maxsize <? n)) eqn:E; [discriminate|].
  intros H Hn. injection H as <- _. destruct (n <? 0) eqn:E2; [apply Z.ltb_lt in E2; lia|].
  unfold zlen. rewrite firstn_length. lia.
Qed.
Lemma bio_read_state n s b s' : bio_read n s = (Ok b, s') -> s' = mkStream (content s) (position s + length b).
Proof.
  unfold bio_read. destruct ((n <? - maxsize - 1) || (maxsize <? n)) eqn:E; [discriminate|].
  intros H. injection H as <- <-. f_equal. f_equal. rewrite firstn_length. unfold zlen.
  destruct (n <? 0); lia.
Qed.
(** a read that got as much as it asked for got what BytesIO would have given *)
Lemma sched_full n s evs b s' evs' : sched_read n (s, evs) = (Ok b, (s', evs')) -> 0 <= n -> n <= zlen b -> bio_read n s = (Ok b, s').
Proof.
  unfold sched_read. intros H Hn Hb. destruct evs as [|[|k|e] l].
  - destruct (bio_read n s) as [r t]. congruence.
  - destruct (bio_read n s) as [r t]. congruence.
  - destruct (bio_read n s) as [[b0|e] t] eqn:E; [|discriminate].
    pose proof (bio_read_len _ _ _ _ E Hn). pose proof (bio_read_state _ _ _ _ E) as Ht.
    assert (b = firstn k b0) as Eb by congruence.
    assert (firstn k b0 = b0) as Ek.
    { apply firstn_all2. rewrite Eb in Hb. unfold zlen in *. rewrite firstn_length in Hb. lia. }
    rewrite Ek in *. subst b. f_equal. congruence.
  - discriminate.
Qed.

Ltac grun := unfold gmap, gbind, glift, gret, graise, gtry in *.

Theorem C93_bytesio : forall c, gread bio_read c = read_call c.
Proof. destruct c; try reflexivity. destruct t; reflexivity. Qed.
Print Assumptions C93_bytesio.

(** ** checked calls *)

(** a device is honest about full reads: one that delivers all that was asked for delivers what
    BytesIO would *)
Section Honest.
Context {S : Type} (dread : Z -> S -> res bytes * S) (abs : S -> stream).
Context (Hon : forall n st b st', dread n st = (Ok b, st') -> 0 <= n -> n <= zlen b -> bio_read n (abs st) = (Ok b, abs st')).
Lemma checked_one c st v st' : checked c ->
  gread dread c st = (Ok v, st') -> read_call c (abs st) = (Ok v, abs st').
Proof.
  rewrite <- C93_bytesio.
  assert (forall e sg n, forall st v st', gunpack_int dread e sg n st = (Ok v, st') ->
    gunpack_int bio_read e sg n (abs st) = (Ok v, abs st')) as HI.
  { intros e sg n s0 v0 s1. unfold gunpack_int. grun.
    destruct (dread _ _) as [[b|x] t] eqn:E; [|discriminate].
    unfold struct_unpack_int. destruct (zlen b =? Z.of_nat n) eqn:El; [|discriminate]. intros H.
    apply Z.eqb_eq in El. rewrite (Hon _ _ _ _ E) by lia. rewrite El, Z.eqb_refl. congruence. }
  assert (forall e sg n, forall st v st', gmap VZ (gunpack_int dread e sg n) st = (Ok v, st') ->
    gmap VZ (gunpack_int bio_read e sg n) (abs st) = (Ok v, abs st')) as HI2.
  { intros e sg n s0 v0 s1. unfold gmap.
    destruct (gunpack_int dread e sg n s0) as [[b|x] t] eqn:E; [|discriminate].
    rewrite (HI _ _ _ _ _ _ E). congruence. }
  destruct c; cbn [checked]; intros Hc; try contradiction; cbn [gread]; try apply HI2.
  - unfold gReadBool. grun. destruct (dread _ _) as [[b|x] t] eqn:E; [|discriminate].
    destruct b as [|b0 [|]]; cbn [struct_unpack_bool struct_unpack_char]; try discriminate. intros H.
    rewrite (Hon _ _ _ _ E) by (cbn; lia). cbn [struct_unpack_bool struct_unpack_char]. congruence.
  - unfold gReadChar. grun. destruct (dread _ _) as [[b|x] t] eqn:E; [|discriminate].
    destruct b as [|b0 [|]]; cbn [struct_unpack_bool struct_unpack_char]; try discriminate. intros H.
    rewrite (Hon _ _ _ _ E) by (cbn; lia). cbn [struct_unpack_bool struct_unpack_char]. congruence.
  - unfold gSafeReadBytes, gReadBytes. grun. destruct (dread _ _) as [[b|x] t] eqn:E; [|discriminate].
    destruct (zlen b <? n) eqn:El; [discriminate|]. intros H. apply Z.ltb_ge in El.
    rewrite (Hon _ _ _ _ E) by lia. rewrite (proj2 (Z.ltb_ge _ _)) by lia. congruence.
  - unfold gReadString, gunpack_s. grun.
    destruct (gunpack_int dread LE false 1 st) as [[n|x] t] eqn:E; [|discriminate].
    rewrite (HI _ _ _ _ _ _ E).
    destruct (dread n _) as [[b|x] t2] eqn:E2; [|discriminate].
    unfold struct_unpack_s. destruct (zlen b =? n) eqn:El; [|discriminate]. intros H. apply Z.eqb_eq in El.
    assert (0 <= n) by (unfold zlen in El; lia).
    rewrite (Hon _ _ _ _ E2) by lia. rewrite El, Z.eqb_refl. congruence.
  - unfold gReadUInt160, gReadBytes. grun. destruct (dread _ _) as [[b|x] t] eqn:E; [|discriminate].
    intros H.
    assert (zlen b = 20) as El.
    { unfold new_UInt160, UIntBase_init in H. cbn [py_len rbind] in H.
      destruct (zlen b =? Z.of_nat 20) eqn:El; [apply Z.eqb_eq in El; exact El|cbn [negb] in H; discriminate H]. }
    rewrite (Hon _ _ _ _ E) by lia. destruct (new_UInt160 _); congruence.
  - unfold gReadUInt256, gReadBytes. grun. destruct (dread _ _) as [[b|x] t] eqn:E; [|discriminate].
    intros H.
    assert (zlen b = 32) as El.
    { unfold new_UInt256, UIntBase_init in H. cbn [py_len rbind] in H.
      destruct (zlen b =? Z.of_nat 32) eqn:El; [apply Z.eqb_eq in El; exact El|cbn [negb] in H; discriminate H]. }
    rewrite (Hon _ _ _ _ E) by lia. destruct (new_UInt256 _); congruence.
  - unfold gReadFloat. grun. destruct (dread _ _) as [[b|x] t] eqn:E; [|discriminate].
    destruct (zlen b =? 4) eqn:El; [|discriminate]. intros H. pose proof El as El'. apply Z.eqb_eq in El'.
    rewrite (Hon _ _ _ _ E) by lia. rewrite El. congruence.
  - unfold gReadDouble. grun. destruct (dread _ _) as [[b|x] t] eqn:E; [|discriminate].
    destruct (zlen b =? 8) eqn:El; [|discriminate]. intros H. pose proof El as El'. apply Z.eqb_eq in El'.
    rewrite (Hon _ _ _ _ E) by lia. rewrite El. congruence.
Qed.

Lemma checked_all calls : forall st vs st', Forall checked calls ->
  in_order (gread dread) calls st = (Ok vs, st') -> in_order read_call calls (abs st) = (Ok vs, abs st').
Proof.
  induction calls as [|c r IH]; intros s vs s' Hc; cbn [in_order]; [congruence|].
  destruct (gread dread c s) as [[v|e] t] eqn:E; [|discriminate].
  rewrite (checked_one _ _ _ _ (Forall_inv Hc) E).
  destruct (in_order (gread dread) r t) as [[ws|e] t2] eqn:E2; [|discriminate].
  intros H. rewrite (IH _ _ _ (Forall_inv_tail Hc) E2). congruence.
Qed.
End Honest.

Theorem C93_checked_calls : forall calls s evs vs s' evs', Forall checked calls ->
  in_order (gread sched_read) calls (s, evs) = (Ok vs, (s', evs')) ->
  in_order read_call calls s = (Ok vs, s').
Proof.
  intros calls s evs vs s' evs' Hc H.
  refine (checked_all sched_read fst _ calls (s, evs) vs (s', evs') Hc H).
  intros n [t l] b [t' l']. apply sched_full.
Qed.
Print Assumptions C93_checked_calls.

(** ** unchecked calls *)
Lemma same_state s : mkStream (content s) (position s + 0) = s.
Proof. destruct s; cbn. rewrite Nat.add_0_r. reflexivity. Qed.
Lemma bio_read_0 s : bio_read 0 s = (Ok [], s).
Proof.
  unfold bio_read. change ((0 <? - maxsize - 1) || (maxsize <? 0)) with false. cbn [Z.ltb Z.compare].
  rewrite Z.min_l by (unfold zlen; lia). cbn [Z.to_nat firstn]. rewrite same_state. reflexivity.
Qed.
Theorem C93_one_fault : forall c s v s', ~ checked c -> read_call c s = (Ok v, s') ->
  exists ev, gread sched_read c (s, [ev]) = (Ok (nothing c), (s, [])).
Proof.
  intros c s v s' Hc. rewrite <- C93_bytesio.
  assert (forall max, gReadVarInt sched_read max (s, [Fail PlainException]) = (Ok 0, (s, []))) as HV by reflexivity.
  assert (sched_read 0 (s, []) = (Ok [], (s, []))) as H0 by (unfold sched_read; rewrite bio_read_0; reflexivity).
  destruct c; cbn [checked] in Hc; try (exfalso; exact (Hc I)); cbn [gread nothing].
  - unfold gSafeReadBytes, gReadBytes. grun. intros H. exists (Short 0). cbn [sched_read].
    destruct (bio_read n s) as [[b|e] t]; [|discriminate]. cbn [firstn length].
    rewrite same_state. rewrite (proj2 (Z.ltb_ge (zlen []) n)) by (cbn; lia). reflexivity.
  - intros _. exists (Fail PlainException). reflexivity.
  - unfold gReadBytes. grun. intros H. exists (Short 0). cbn [sched_read].
    destruct (bio_read n s) as [[b|e] t]; [|discriminate]. cbn [firstn length]. rewrite same_state. reflexivity.
  - intros _. exists (Fail PlainException). reflexivity.
  - intros _. exists (Fail PlainException). unfold gReadVarBytes, gReadBytes. grun. rewrite HV, H0. reflexivity.
  - intros _. exists (Fail PlainException). unfold gReadVarString, gunpack_s. grun. rewrite HV, H0. reflexivity.
  - unfold gReadFixedString, gReadBytes. grun. intros H. exists (Short 0). cbn [sched_read].
    destruct (bio_read n s) as [[b|e] t]; [|discriminate]. cbn [firstn length]. rewrite same_state. reflexivity.
  - intros _. exists (Fail PlainException). reflexivity.
  - intros _. exists (Fail PlainException). reflexivity.
  - intros _. exists (Fail PlainException). reflexivity.
Qed.
Print Assumptions C93_one_fault.

(** whatever goes wrong with the first byte, and whatever the stream is *)
Theorem C93_error_reads_as_zero : forall (S : Type) (dread : Z -> S -> res bytes * S) c s r s',
  In c [GByte; GHashes] \/ (exists max, c = GVarInt max \/ c = GUInt256Array max) \/ (exists cv, c = GPoint cv) ->
  dread 1 s = (r, s') -> (forall b, r = Ok b -> length b <> 1%nat) ->
  gread dread c s = (Ok (nothing c), s').
Proof.
  intros S dread c s r s' Hc Hr Hb.
  assert (gReadByte dread s = (Ok 0, s')) as H0.
  { unfold gReadByte. grun. rewrite Hr. destruct r as [[|x [|y b]]|e]; try reflexivity. exfalso. exact (Hb _ eq_refl eq_refl). }
  destruct Hc as [[<-|[<-|[]]]|[[max [->| ->]]|[cv ->]]]; cbn [gread nothing].
  - unfold gmap. rewrite H0. reflexivity.
  - unfold gmap, gReadHashes, gReadVarInt. grun. rewrite H0. reflexivity.
  - unfold gmap, gReadVarInt. grun. rewrite H0. reflexivity.
  - unfold gmap, gReadSerializableArray, gReadVarInt. grun. rewrite H0. reflexivity.
  - unfold gmap, gdecode_from_reader. grun. rewrite H0. reflexivity.
Qed.
Print Assumptions C93_error_reads_as_zero.

(** ** full service *)
Section Sim.
Context {S1 S2 : Type} (R : S1 -> S2 -> Prop).
Definition sim {A} (m1 : S1 -> res A * S1) (m2 : S2 -> res A * S2) : Prop :=
  forall s1 s2, R s1 s2 -> fst (m1 s1) = fst (m2 s2) /\ R (snd (m1 s1)) (snd (m2 s2)).
Lemma sim_lift A (r : res A) : sim (glift r) (glift r).
Proof. intros s1 s2 H. split; [reflexivity|exact H]. Qed.
Lemma sim_ret A (a : A) : sim (gret a) (gret a).
Proof. intros s1 s2 H. split; [reflexivity|exact H]. Qed.
Lemma sim_raise A e : sim (@graise S1 A e) (@graise S2 A e).
Proof. intros s1 s2 H. split; [reflexivity|exact H]. Qed.
Lemma sim_bind A B m1 m2 (f1 : A -> S1 -> res B * S1) f2 : sim m1 m2 -> (forall a, sim (f1 a) (f2 a)) ->
  sim (gbind m1 f1) (gbind m2 f2).
Proof.
  intros Hm Hf s1 s2 H. unfold gbind. specialize (Hm _ _ H).
  destruct (m1 s1) as [r1 t1], (m2 s2) as [r2 t2]; cbn in Hm. destruct Hm as [-> Ht].
  destruct r2 as [a|e]; [exact (Hf a _ _ Ht)|split; [reflexivity|exact Ht]].
Qed.
Lemma sim_try A (m1 : S1 -> res A * S1) m2 h1 h2 : sim m1 m2 -> (forall e, sim (h1 e) (h2 e)) -> sim (gtry m1 h1) (gtry m2 h2).
Proof.
  intros Hm Hf s1 s2 H. unfold gtry. specialize (Hm _ _ H).
  destruct (m1 s1) as [r1 t1], (m2 s2) as [r2 t2]; cbn in Hm. destruct Hm as [-> Ht].
  destruct r2 as [a|e]; [split; [reflexivity|exact Ht]|exact (Hf e _ _ Ht)].
Qed.
Lemma sim_map A B (f : A -> B) m1 m2 : sim m1 m2 -> sim (gmap f m1) (gmap f m2).
Proof.
  intros Hm s1 s2 H. unfold gmap. specialize (Hm _ _ H).
  destruct (m1 s1) as [r1 t1], (m2 s2) as [r2 t2]; cbn in Hm. destruct Hm as [-> Ht].
  destruct r2 as [a|e]; split; try reflexivity; exact Ht.
Qed.
Lemma sim_repeat A (m1 : S1 -> res A * S1) m2 n : sim m1 m2 -> sim (grepeat n m1) (grepeat n m2).
Proof.
  intros Hm. induction n; cbn [grepeat]; [apply sim_ret|].
  apply sim_bind; [exact Hm|intros a]. apply sim_bind; [exact IHn|intros l; apply sim_ret].
Qed.
Lemma sim_loop A (m1 : S1 -> res A * S1) m2 n : sim m1 m2 -> sim (gdeserialize_loop m1 n) (gdeserialize_loop m2 n).
Proof.
  intros Hm. induction n; cbn [gdeserialize_loop]; [apply sim_ret|]. intros s1 s2 H. specialize (Hm _ _ H).
  destruct (m1 s1) as [r1 t1], (m2 s2) as [r2 t2]; cbn in Hm. destruct Hm as [-> Ht].
  destruct r2 as [a|e]; [|split; [reflexivity|exact Ht]]. specialize (IHn _ _ Ht).
  destruct (gdeserialize_loop m1 n t1) as [q1 u1], (gdeserialize_loop m2 n t2) as [q2 u2]; cbn in IHn. destruct IHn as [-> Hu].
  destruct q2; split; try reflexivity; exact Hu.
Qed.
Context (d1 : Z -> S1 -> res bytes * S1) (d2 : Z -> S2 -> res bytes * S2) (Hd : forall n, sim (d1 n) (d2 n)).
Lemma sim_read c : sim (gread d1 c) (gread d2 c).
Proof.
  assert (sim (gReadByte d1) (gReadByte d2)) as HB.
  { apply sim_try; [apply sim_bind; [apply Hd|intros b]|intros e; apply sim_ret].
    destruct b as [|x [|]]; try apply sim_raise. apply sim_ret. }
  assert (forall e sg n, sim (gunpack_int d1 e sg n) (gunpack_int d2 e sg n)) as HI.
  { intros. apply sim_bind; [apply Hd|intros; apply sim_lift]. }
  assert (forall max, sim (gReadVarInt d1 max) (gReadVarInt d2 max)) as HV.
  { intros. apply sim_bind; [exact HB|intros fb]. destruct (fb =? 0); [apply sim_ret|].
    apply sim_bind; [|intros v; destruct (v >? max); [apply sim_raise|apply sim_ret]].
    destruct (fb =? 253); [apply HI|]. destruct (fb =? 254); [apply HI|]. destruct (fb =? 255); [apply HI|apply sim_ret]. }
  destruct c; cbn [gread]; apply sim_map; try apply HI; try apply HV; try exact HB; try apply Hd;
    try (apply sim_bind; [first [apply Hd | apply HI | apply HV] |]); try (intros; apply sim_lift).
  - intros b. destruct (zlen b <? n); [apply sim_raise|apply sim_ret].
  - intros n. apply sim_bind; [apply Hd|intros; apply sim_lift].
  - intros n. apply Hd.
  - intros n. apply sim_bind; [apply Hd|intros; apply sim_lift].
  - intros n. apply sim_repeat. apply sim_bind; [apply Hd|intros; apply sim_ret].
  - intros n. apply sim_loop. apply sim_bind; [apply Hd|intros; apply sim_ret].
  - unfold gdecode_from_reader. apply sim_bind; [exact HB|intros f]. destruct (f =? 0); [apply sim_ret|].
    destruct ((f =? 2) || (f =? 3)); [apply sim_bind; [apply Hd|intros; apply sim_lift]|].
    destruct ((f =? 4) || (f =? 6) || (f =? 7)); apply sim_raise.
Qed.
Lemma sim_in_order A C (run1 : C -> S1 -> res A * S1) run2 l : (forall c, sim (run1 c) (run2 c)) -> sim (in_order run1 l) (in_order run2 l).
Proof.
  intros Hr. induction l as [|c r IH]; cbn [in_order]; [intros s1 s2 H; split; [reflexivity|exact H]|].
  intros s1 s2 H. specialize (Hr c _ _ H).
  destruct (run1 c s1) as [r1 t1], (run2 c s2) as [r2 t2]; cbn in Hr. destruct Hr as [-> Ht].
  destruct r2 as [a|e]; [|split; [reflexivity|exact Ht]]. specialize (IH _ _ Ht).
  destruct (in_order run1 r t1) as [q1 u1], (in_order run2 r t2) as [q2 u2]; cbn in IH. destruct IH as [-> Hu].
  destruct q2; split; try reflexivity; exact Hu.
Qed.
End Sim.

(** reads served in full (a buffered stream) behave as BytesIO, whatever follows *)
Theorem C93_full_service : forall calls s evs, Forall (eq Full) evs ->
  fst (in_order (gread sched_read) calls (s, evs)) = fst (in_order read_call calls s) /\
  fst (snd (in_order (gread sched_read) calls (s, evs))) = snd (in_order read_call calls s).
Proof.
  intros calls s evs H.
  pose (R := fun (st : scheduled) (s : stream) => fst st = s /\ Forall (eq Full) (snd st)).
  destruct (sim_in_order R _ _ (gread sched_read) read_call calls) with (s1 := (s, evs)) (s2 := s) as [E1 E2].
  - intros c. rewrite <- C93_bytesio. apply sim_read. intros n [t ev] t' [Et Hev]. cbn in Et, Hev. subst t'.
    unfold sched_read. destruct ev as [|x l].
    + destruct (bio_read n t) as [r u]. repeat split. constructor.
    + inversion Hev as [|? ? <- Hl]. destruct (bio_read n t) as [r u]. repeat split. exact Hl.
  - split; [reflexivity|exact H].
  - split; [exact E1|exact (proj1 E2)].
Qed.
Print Assumptions C93_full_service.

(** a short read hands over what came and the next field starts in the middle *)
Theorem C93_short_read : forall n k l s b s', ReadBytes n s = (Ok b, s') ->
  gread sched_read (GBytes n) (s, Short k :: l) =
    (Ok (VData (firstn k b)), (mkStream (content s) (position s + Nat.min k (length b)), l)).
Proof.
  intros n k l s b s' H. cbn [gread]. unfold gmap, gReadBytes. cbn [sched_read]. unfold ReadBytes in H. rewrite H.
  rewrite firstn_length. reflexivity.
Qed.
Print Assumptions C93_short_read.
Lemma hex64_sched s : gread_hex64 sched_read (s, []) = (fst (read_hex64 s), (snd (read_hex64 s), [])).
Proof.
  unfold gread_hex64, read_hex64, gbind, ibind, gReadBytes, ReadBytes, glift, ilift, gret, iret. cbn [sched_read].
  destruct (bio_read 64 s) as [[d|e] s1]; [|reflexivity]. destruct (unhexlify (VBytes d)); reflexivity.
Qed.
Lemma hex64_bytesio s : gread_hex64 bio_read s = read_hex64 s.
Proof. reflexivity. Qed.
Lemma repeat_bytesio n s : grepeat n (gread_hex64 bio_read) s = io_repeat n read_hex64 s.
Proof.
  revert s. induction n as [|n IH]; intros s; [reflexivity|]. cbn [grepeat io_repeat]. unfold gbind, ibind. rewrite hex64_bytesio.
  destruct (read_hex64 s) as [[x|e] s1]; [|reflexivity]. rewrite IH. reflexivity.
Qed.
Lemma repeat_sched n s : grepeat n (gread_hex64 sched_read) (s, []) = (fst (io_repeat n read_hex64 s), (snd (io_repeat n read_hex64 s), [])).
Proof.
  revert s. induction n as [|n IH]; intros s; [reflexivity|]. cbn [grepeat io_repeat]. unfold gbind, ibind. rewrite hex64_sched.
  destruct (read_hex64 s) as [[x|e] s1]; cbn [fst snd]; [|reflexivity]. rewrite IH.
  destruct (io_repeat n read_hex64 s1) as [[l|e] s2]; reflexivity.
Qed.
Lemma repeat_shorter n s l s' : io_repeat (S n) read_hex64 s = (Ok l, s') -> exists s'', io_repeat n read_hex64 s = (Ok (firstn n l), s'').
Proof.
  revert s l s'. induction n as [|n IH]; intros s l s' E; [exists s; reflexivity|].
  cbn [io_repeat] in E. change (io_repeat (S n) read_hex64) with (ibind read_hex64 (fun x => ibind (io_repeat n read_hex64) (fun l => iret (x :: l)))).
  unfold ibind at 1 in E. unfold ibind at 1. destruct (read_hex64 s) as [[x|e] s1]; [|discriminate]. 
  change (ibind read_hex64 (fun x => ibind (io_repeat n read_hex64) (fun l => iret (x :: l)))) with (io_repeat (S n) read_hex64) in E.
  unfold ibind in E at 1. destruct (io_repeat (S n) read_hex64 s1) as [[m|e] s2] eqn:Em; [|discriminate].
  destruct (IH s1 m s2 Em) as (s3 & E3). unfold ibind. rewrite E3. unfold iret in *. exists s3. assert (l = x :: m) as -> by congruence. reflexivity.
Qed.
Lemma repeat_fault n s l s' : io_repeat (S n) read_hex64 s = (Ok l, s') ->
  exists s'', grepeat (S n) (gread_hex64 sched_read) (s, [Short 0]) = (Ok ([] :: firstn n l), (s'', [])).
Proof.
  intros E. destruct (repeat_shorter n s l s' E) as (s'' & E'). exists s''. cbn [grepeat]. unfold gbind at 1.
  assert (X : gread_hex64 sched_read (s, [Short 0]) = (Ok [], (s, []))).
  { cbn [io_repeat] in E. unfold ibind at 1, read_hex64 at 1, ibind, ReadBytes in E.
    unfold gread_hex64, gbind, gReadBytes, glift, gret. cbn [sched_read]. destruct (bio_read 64 s) as [[d|e] s1] eqn:Eb; [|discriminate].
    cbn. rewrite ?same_state. reflexivity. }
  rewrite X. unfold gbind. rewrite repeat_sched, E'. reflexivity.
Qed.
(** Read2000256List is unprotected in the same way: a read that comes short shifts all that follows *)
Theorem C93_list_2000 : (forall s, gRead2000256List bio_read s = Read2000256List s) /\
  (forall s l s', Read2000256List s = (Ok l, s') ->
     exists s'', gRead2000256List sched_read (s, [Short 0]) = (Ok ([] :: firstn 1999 l), (s'', []))).
Proof.
  split; [intros s; apply repeat_bytesio|]. intros s l s' E. exact (repeat_fault 1999 s l s' E).
Qed.
Print Assumptions C93_list_2000.

Example C93_example :
  Forall checked [GInt U16 LE; GUInt160; GSafeBytes 4] /\
  in_order (gread sched_read) [GInt U16 LE; GBool] (mkStream [x01; x02; x03] 0, [Full; Full]) = (Ok [VZ 513; VTruth true], (mkStream [x01; x02; x03] 3, [])) /\
  fst (in_order (gread sched_read) [GInt U16 LE; GBool] (mkStream [x01; x02; x03] 0, [Short 1])) = Raise StructError /\
  ~ checked (GVarBytes 10) /\
  read_call (GVarBytes 10) (mkStream [x02; x41; x42] 0) = (Ok (VData [x41; x42]), mkStream [x02; x41; x42] 3) /\
  fst (in_order (gread sched_read) [GVarBytes 10; GByte] (mkStream [x02; x41; x42] 0, [Full; Short 1])) = Ok [VData [x41]; VZ 66] /\
  fst (gread sched_read (GVarInt 10) (mkStream [x02] 0, [Fail PlainException])) = Ok (VZ 0).
Proof. repeat split; try (repeat constructor; fail). - repeat (apply Forall_cons; [cbn; try exact I; lia|]). apply Forall_nil. - intros []. Qed.

(** ** Writers *)

Definition writer := forall S N : Type, (bytes -> S -> res N * S) -> S -> res unit * S.
Definition feeder (m : writer) : Prop :=
  exists chunks r, forall S N (dwrite : bytes -> S -> res N * S) s, m S N dwrite s = feed dwrite chunks r s.

Lemma feed_app S N (dw : bytes -> S -> res N * S) l1 l2 r s :
  feed dw (l1 ++ l2) r s = match feed dw l1 (Ok tt) s with (Ok _, s') => feed dw l2 r s' | x => x end.
Proof.
  revert s. induction l1 as [|b l IH]; intros s; cbn [app feed]; [reflexivity|].
  destruct (dw b s) as [[n|e] s']; [apply IH|reflexivity].
Qed.
Lemma feed_raise S N (dw : bytes -> S -> res N * S) l e s :
  feed dw l (Raise e) s = match feed dw l (Ok tt) s with (Ok _, s') => (Raise e, s') | x => x end.
Proof.
  revert s. induction l as [|b l IH]; intros s; cbn [feed]; [reflexivity|].
  destruct (dw b s) as [[n|e'] s']; [apply IH|reflexivity].
Qed.
Lemma feeder_ext (m m' : writer) : (forall S N dw s, m S N dw s = m' S N dw s) -> feeder m -> feeder m'.
Proof. intros H (l & r & E). exists l, r. intros. rewrite <- H. apply E. Qed.
Lemma feeder_const r : feeder (fun S N dw s => (r, s)).
Proof. exists [], r. reflexivity. Qed.
Lemma feeder_one b : feeder (fun S N dw => gmap (fun _ => tt) (dw b)).
Proof. exists [b], (Ok tt). intros. cbn [feed]. unfold gmap. destruct (dwrite b s) as [[n|e] s']; reflexivity. Qed.
Lemma feeder_seq (m m' : writer) : feeder m -> feeder m' -> feeder (fun S N dw => gbind (m S N dw) (fun _ => m' S N dw)).
Proof.
  intros (l & r & E) (l' & r' & E'). destruct r as [[]|e].
  - exists (l ++ l'), r'. intros. unfold gbind. rewrite E, feed_app.
    destruct (feed dwrite l (Ok tt) s) as [[[]|e] s']; [apply E'|reflexivity].
  - exists l, (Raise e). intros. unfold gbind. rewrite E, feed_raise.
    destruct (feed dwrite l (Ok tt) s) as [[[]|e'] s']; reflexivity.
Qed.
(** sequencing when the first step returns something that is not used *)
Lemma feeder_seq2 (A : Type -> Type) (m : forall S N : Type, (bytes -> S -> res N * S) -> S -> res (A N) * S) (m' : writer) :
  feeder (fun S N dw => gmap (fun _ => tt) (m S N dw)) -> feeder m' ->
  feeder (fun S N dw => gbind (m S N dw) (fun _ => m' S N dw)).
Proof.
  intros H H'. eapply feeder_ext; [|exact (feeder_seq _ _ H H')].
  intros S N dw s. unfold gbind, gmap. destruct (m S N dw s) as [[a|e] s']; reflexivity.
Qed.

Lemma f_stream_write v : feeder (fun S N dw => gmap (fun _ => tt) (gstream_write dw v)).
Proof. destruct v; cbn [gstream_write]; first [apply feeder_one | exact (feeder_const (Raise TypeError))]. Qed.
Lemma f_WriteBytes v u : feeder (fun S N dw => gmap (fun _ => tt) (gWriteBytes dw v u)).
Proof.
  unfold gWriteBytes. destruct u; [|apply f_stream_write].
  destruct (unhexlify v) as [b|e]; [apply feeder_one|].
  destruct e; first [apply f_stream_write | match goal with |- context [graise ?e] => exact (feeder_const (Raise e)) end].
Qed.
Lemma f_WriteByte v : feeder (fun S N dw => gWriteByte dw v).
Proof.
  assert (forall b, feeder (fun S N dw => gbind (dw b) (fun _ => gret tt))) as H1.
  { intros b. eapply feeder_ext; [|apply (feeder_one b)]. intros S N dw s. unfold gmap, gbind. destruct (dw b s) as [[]]; reflexivity. }
  destruct v; cbn [gWriteByte]; try exact (feeder_const (Ok tt)); [apply H1| |].
  - destruct (utf8_encode s) as [b|e]; [exact (H1 b)|exact (feeder_const (Raise e))].
  - destruct ((0 <=? z) && (z <=? 255)); [apply H1|exact (feeder_const (Raise ValueError))].
Qed.
(** something computed from the arguments, then WriteBytes *)
Lemma f_then_bytes (r : res bytes) u : feeder (fun S N dw => gmap (fun _ => tt) (gbind (glift r) (fun b => gWriteBytes dw (VBytes b) u))).
Proof. destruct r as [b|e]; [exact (f_WriteBytes (VBytes b) u)|exact (feeder_const (Raise e))]. Qed.
Lemma f_pack e sg n z : feeder (fun S N dw => gmap (fun _ => tt) (gpack_int dw e sg n z)).
Proof. apply f_then_bytes. Qed.
Lemma f_WriteVarInt v e : feeder (fun S N dw => gmap (fun _ => tt) (gWriteVarInt dw v e)).
Proof.
  assert (forall n w k, feeder (fun S N dw => gmap (fun _ => tt) (gbind (gWriteByte dw (VInt n)) (fun _ => gbind (gpack_int dw e false k w) (fun n => gret (Some n)))))) as H.
  { intros n w k. eapply feeder_ext; [|exact (feeder_seq _ _ (f_WriteByte (VInt n)) (f_pack e false k w))].
    intros S N dw s. unfold gmap, gbind. destruct (gWriteByte dw (VInt n) s) as [[[]|x] s']; [|reflexivity].
    destruct (gpack_int dw e false k w s') as [[a|x] s'']; reflexivity. }
  unfold gWriteVarInt. destruct (as_int v) as [z|]; [|exact (feeder_const (Raise TypeError))].
  destruct (z <? 0); [exact (feeder_const (Raise PlainException))|].
  destruct (z <? 253).
  { eapply feeder_ext; [|exact (f_WriteByte v)]. intros S N dw s. unfold gmap, gbind. destruct (gWriteByte dw v s) as [[[]|x] s']; reflexivity. }
  destruct (z <=? 65535); [apply H|]. destruct (z <=? 4294967295); apply H.
Qed.
Lemma f_serialize_all A (ser : forall S N : Type, (bytes -> S -> res N * S) -> A -> S -> res unit * S) l :
  (forall x, feeder (fun S N dw => ser S N dw x)) -> feeder (fun S N dw => gserialize_all (ser S N dw) l).
Proof.
  intros H. induction l as [|x r IH]; cbn [gserialize_all]; [exact (feeder_const (Ok tt))|].
  exact (feeder_seq _ _ (H x) IH).
Qed.
Lemma f_bytes_unit v u : feeder (fun S N dw => gbind (gWriteBytes dw v u) (fun _ => gret tt)).
Proof. eapply feeder_ext; [|exact (f_WriteBytes v u)]. intros S N dw s. unfold gmap, gbind. destruct (gWriteBytes dw v u s) as [[]]; reflexivity. Qed.
Lemma f_reversed_hex v : feeder (fun S N dw => gwrite_reversed_hex dw v).
Proof.
  unfold gwrite_reversed_hex. destruct (unhexlify v) as [b|e]; [exact (f_bytes_unit _ _)|exact (feeder_const (Raise e))].
Qed.
Lemma f_zeros n : feeder (fun S N dw => gwrite_zeros dw n).
Proof. induction n; cbn [gwrite_zeros]; [exact (feeder_const (Ok tt))|exact (feeder_seq _ _ (f_WriteByte (VInt 0)) IHn)]. Qed.
Definition option_t (N : Type) := option N.
Lemma f_varint_then v e (m : writer) : feeder m -> feeder (fun S N dw => gbind (gWriteVarInt dw v e) (fun _ => m S N dw)).
Proof. intros H. exact (feeder_seq2 option_t (fun S N dw => gWriteVarInt dw v e) m (f_WriteVarInt v e) H). Qed.

Lemma f_write c : feeder (fun S N dw => gwrite dw c).
Proof.
  destruct c; cbn [gwrite]; try apply f_pack; try apply f_WriteBytes; try apply f_WriteByte; try apply f_WriteVarInt.
  - unfold gWriteChar. apply f_then_bytes.
  - unfold gWriteFloat. apply f_then_bytes.
  - unfold gWriteDouble. apply f_then_bytes.
  - unfold gWriteVarBytes. destruct (py_len v) as [n|x]; [|exact (feeder_const (Raise x))].
    eapply feeder_ext; [|exact (f_varint_then (VInt n) e _ (f_WriteBytes v false))].
    intros S N dw s. unfold gmap, gbind, glift. destruct (gWriteVarInt dw (VInt n) e s) as [[a|x] s']; reflexivity.
  - unfold gWriteVarString.
    destruct (match v with VStr s => do b <- utf8_encode s; Ok (VBytes b) | v => Ok v end) as [w|x]; [|exact (feeder_const (Raise x))].
    destruct w; try exact (feeder_const (Raise TypeError)); exact (f_varint_then _ _ _ (f_bytes_unit _ _)).
  - unfold gWriteFixedString. destruct (utf8_encode s) as [b|x]; [|exact (feeder_const (Raise x))].
    eapply feeder_ext with (m := fun S N dw => if zlen b >? n then graise PlainException
        else gbind (gWriteBytes dw (VBytes b) true) (fun _ => gwrite_zeros dw (Z.to_nat (n - zlen b)))); [reflexivity|].
    destruct (zlen b >? n); [exact (feeder_const (Raise PlainException))|].
    exact (feeder_seq2 (fun N => N) (fun S N dw => gWriteBytes dw (VBytes b) true) _ (f_WriteBytes _ _) (f_zeros _)).
  - destruct u as [u|]; cbn [gWriteUInt160]; [|exact (feeder_const (Raise PlainException))].
    destruct (u_cls u); try exact (feeder_const (Raise PlainException)). exact (f_bytes_unit _ _).
  - destruct u as [u|]; cbn [gWriteUInt256]; [|exact (feeder_const (Raise PlainException))].
    destruct (u_cls u); try exact (feeder_const (Raise PlainException)). exact (f_bytes_unit _ _).
  - exact (f_serialize_all _ (fun S N dw => gwrite_reversed_hex dw) l f_reversed_hex).
  - exact (f_varint_then _ _ _ (f_serialize_all _ (fun S N dw => gwrite_reversed_hex dw) l f_reversed_hex)).
  - destruct l as [l|]; cbn [gWriteSerializableArray]; [|exact (f_WriteByte _)].
    exact (f_varint_then _ _ _ (f_serialize_all _ (fun S N dw => guint_Serialize dw) l (fun u => f_bytes_unit _ _))).
Qed.

(** the calls of a message in order, up to the first exception *)
Lemma f_write_all calls : feeder (fun S N dw => write_all (gwrite dw) calls).
Proof.
  induction calls as [|c r IH]; cbn [write_all]; [exact (feeder_const (Ok tt))|].
  eapply feeder_ext; [|exact (feeder_seq _ _ (f_write c) IH)].
  intros S N dw s. unfold gbind. destruct (gwrite dw c s) as [[[]|e] s']; reflexivity.
Qed.
Theorem C94_bytesio : forall c, gwrite bio_write c = write_call c.
Proof. destruct c; try reflexivity. destruct t; reflexivity. Qed.
Print Assumptions C94_bytesio.
Lemma write_all_ext S (f g : wcall -> S -> res unit * S) l : (forall c, f c = g c) -> forall s, write_all f l s = write_all g l s.
Proof. intros H. induction l as [|c r IH]; intros s; cbn [write_all]; [reflexivity|]. rewrite H. destruct (g c s) as [[u|e] s']; [apply IH|reflexivity]. Qed.
Lemma bio_write_end b pre : exists n, bio_write b (at_end pre) = (Ok n, at_end (pre ++ b)).
Proof.
  destruct b as [|x b]; [exists 0; rewrite app_nil_r; reflexivity|]. eexists. unfold bio_write, at_end. cbn [content position].
  rewrite firstn_all, Nat.sub_diag. cbn [repeat]. rewrite (skipn_all2 pre) by lia. rewrite !app_nil_r. f_equal. f_equal.
  rewrite app_length. reflexivity.
Qed.
Lemma feed_bytesio l r pre : feed bio_write l r (at_end pre) = (r, at_end (pre ++ concat l)).
Proof.
  revert pre. induction l as [|b l IH]; intros pre; cbn [feed concat]; [rewrite app_nil_r; reflexivity|].
  destruct (bio_write_end b pre) as [n ->]. rewrite IH, app_assoc. reflexivity.
Qed.
(** What a message sends to the stream, and in which pieces, is fixed by the calls alone. *)
Theorem C94_same_writes : forall calls, exists pieces r,
  (forall pre, write_all write_call calls (at_end pre) = (r, at_end (pre ++ concat pieces))) /\
  (forall S N (dwrite : bytes -> S -> res N * S) s, write_all (gwrite dwrite) calls s = feed dwrite pieces r s).
Proof.
  intros calls. destruct (f_write_all calls) as (l & r & E). exists l, r. split; [|exact E].
  intros pre. rewrite (write_all_ext _ write_call (gwrite bio_write)) by (intros c; symmetry; apply C94_bytesio).
  rewrite E. apply feed_bytesio.
Qed.
Print Assumptions C94_same_writes.

Lemma at_end_inj a b : at_end a = at_end b -> a = b.
Proof. unfold at_end. congruence. Qed.
Lemma feed_crash e l : forall r pre room,
  feed (crash_write e) l r (pre, room) =
    if (length (concat l) <=? room)%nat then (r, (pre ++ concat l, (room - length (concat l))%nat))
    else (Raise e, (pre ++ firstn room (concat l), 0%nat)).
Proof.
  induction l as [|b l IH]; intros r pre room; cbn [feed concat].
  - cbn. rewrite app_nil_r, Nat.sub_0_r. reflexivity.
  - unfold crash_write at 1. rewrite app_length. destruct (length b <=? room)%nat eqn:E.
    + apply Nat.leb_le in E. rewrite IH. destruct (length (concat l) <=? room - length b)%nat eqn:E2.
      * apply Nat.leb_le in E2. rewrite (proj2 (Nat.leb_le _ _)) by lia. rewrite app_assoc, Nat.sub_add_distr. reflexivity.
      * apply Nat.leb_gt in E2. rewrite (proj2 (Nat.leb_gt _ _)) by lia. rewrite firstn_app, <- app_assoc.
        rewrite (firstn_all2 b) by lia. reflexivity.
    + apply Nat.leb_gt in E. rewrite (proj2 (Nat.leb_gt _ _)) by lia. rewrite firstn_app.
      replace (room - length b)%nat with 0%nat by lia. cbn [firstn]. rewrite app_nil_r. reflexivity.
Qed.
(** A crash after any number of bytes leaves exactly that many bytes of the message. *)
Theorem C94_crash : forall calls pre r data e room,
  write_all write_call calls (at_end pre) = (r, at_end (pre ++ data)) ->
  write_all (gwrite (crash_write e)) calls (pre, room) =
    if (length data <=? room)%nat then (r, (pre ++ data, (room - length data)%nat))
    else (Raise e, (pre ++ firstn room data, 0%nat)).
Proof.
  intros calls pre r data e room H. destruct (C94_same_writes calls) as (l & r' & E1 & E2).
  rewrite E1 in H. assert (r' = r) as -> by congruence.
  assert (concat l = data) as <-. { apply (app_inv_head pre). apply at_end_inj. congruence. }
  rewrite E2. apply feed_crash.
Qed.
Print Assumptions C94_crash.

(** Short writes are not noticed: the call ends as it would on BytesIO, with less data stored ... *)
Theorem C94_short_writes : forall calls pre r data ks,
  write_all write_call calls (at_end pre) = (r, at_end (pre ++ data)) ->
  exists d ks', write_all (gwrite lossy_write) calls (pre, ks) = (r, (pre ++ d, ks')) /\ (length d <= length data)%nat.
Proof.
  intros calls pre r data ks H. destruct (C94_same_writes calls) as (l & r' & E1 & E2).
  rewrite E1 in H. assert (r' = r) as -> by congruence.
  assert (concat l = data) as <-. { apply (app_inv_head pre). apply at_end_inj. congruence. }
  rewrite E2. clear. revert pre ks. induction l as [|b l IH]; intros pre ks; cbn [feed concat].
  - exists [], ks. rewrite app_nil_r. split; [reflexivity|cbn; lia].
  - destruct ks as [|k ks]; cbn [lossy_write].
    + destruct (IH (pre ++ b) []) as (d & ks' & E & Hd). exists (b ++ d), ks'. split; [rewrite app_assoc; exact E|].
      rewrite !app_length. lia.
    + destruct (IH (pre ++ firstn k b) ks) as (d & ks' & E & Hd). exists (firstn k b ++ d), ks'. split; [rewrite app_assoc; exact E|].
      rewrite !app_length, firstn_length. lia.
Qed.
Print Assumptions C94_short_writes.
(** ... possibly none at all. *)
Theorem C94_all_lost : forall calls pre r data,
  write_all write_call calls (at_end pre) = (r, at_end (pre ++ data)) ->
  exists ks, write_all (gwrite lossy_write) calls (pre, ks) = (r, (pre, [])).
Proof.
  intros calls pre r data H. destruct (C94_same_writes calls) as (l & r' & E1 & E2).
  rewrite E1 in H. assert (r' = r) as -> by congruence.
  exists (repeat 0%nat (length l)). rewrite E2. clear. revert pre. induction l as [|b l IH]; intros pre; cbn [feed length repeat]; [reflexivity|].
  cbn [lossy_write firstn]. rewrite app_nil_r. apply IH.
Qed.
Print Assumptions C94_all_lost.

(** A torn message of checked fields is refused by the reader. *)
Theorem C94_torn_message : forall calls data out cut, Forall checked calls ->
  in_order read_call calls (mkStream data 0) = (Ok out, mkStream data (length data)) -> (cut < length data)%nat ->
  exists e, fst (in_order read_call calls (mkStream (firstn cut data) 0)) = Raise e.
Proof.
  intros calls data out cut Hc Hfull Hcut. set (t := firstn cut data).
  assert (length t = cut) as Hlt by (unfold t; rewrite firstn_length; lia).
  pose (dread := fun n (p : nat) => let (r, s') := bio_read n (mkStream t p) in (r, position s')).
  pose (R := fun (p : nat) (s : stream) => s = mkStream t p /\ (p <= cut)%nat).
  destruct (sim_in_order R _ _ (gread dread) read_call calls) with (s1 := 0%nat) (s2 := mkStream t 0) as [E1 E2].
  - intros c. rewrite <- C93_bytesio. apply sim_read. intros n p s [-> Hp]. unfold dread.
    destruct (bio_read n (mkStream t p)) as [r u] eqn:E. split; [reflexivity|]. cbn [snd].
    unfold bio_read in E. destruct ((n <? - maxsize - 1) || (maxsize <? n)); [split; [|cbn]; assert (u = mkStream t p) as -> by congruence; [reflexivity|exact Hp]|].
    assert (exists k, (k <= length (skipn p t))%nat /\ u = mkStream t (p + k)) as (k & Hk & ->).
    { cbn [content position] in E. eexists. split; [|symmetry; exact (f_equal snd E)]. unfold zlen. destruct (n <? 0); lia. }
    rewrite skipn_length in Hk. split; [reflexivity|cbn; lia].
  - split; [reflexivity|lia].
  - destruct (in_order read_call calls (mkStream t 0)) as [[vs|e] u] eqn:Eu; [exfalso|exists e; reflexivity].
    destruct (in_order (gread dread) calls 0%nat) as [r1 p1] eqn:Ep. cbn [fst snd] in E1, E2. subst r1. destruct E2 as [-> Hp1].
    assert (in_order read_call calls (mkStream data 0) = (Ok vs, mkStream data p1)) as Hd.
    { refine (checked_all dread (fun p => mkStream data p) _ calls 0%nat vs p1 Hc Ep).
      intros n p b p' H Hn Hb. unfold dread in H. destruct (bio_read n (mkStream t p)) as [[b0|e] u] eqn:E; [|discriminate].
      assert (b0 = b) as -> by congruence. assert (position u = p') as <- by congruence.
      pose proof (bio_read_len _ _ _ _ E Hn) as Hl. pose proof (bio_read_state _ _ _ _ E) as Hu.
      unfold bio_read in E |- *. destruct ((n <? - maxsize - 1) || (maxsize <? n)); [discriminate|]. cbn [content position] in *.
      rewrite (proj2 (Z.ltb_ge n 0)) in * by lia.
      assert (zlen b = n) as Hbn by lia.
      assert (firstn (Z.to_nat n) (skipn p t) = b /\ (Z.to_nat n <= length (skipn p t))%nat) as [Hf Hle].
      { assert (firstn (Z.to_nat (Z.min n (zlen (skipn p t)))) (skipn p t) = b) as Hf by congruence.
        assert (Z.min n (zlen (skipn p t)) = n) as Hm.
        { rewrite <- Hf in Hbn. unfold zlen in *. rewrite firstn_length in Hbn. lia. }
        rewrite Hm in Hf. split; [exact Hf|]. unfold zlen in Hm. lia. }
      assert (firstn (Z.to_nat n) (skipn p data) = b /\ (Z.to_nat n <= length (skipn p data))%nat) as [Hf' Hle'].
      { unfold t in Hf, Hle. rewrite skipn_firstn_comm in Hf, Hle. rewrite firstn_firstn in Hf. rewrite firstn_length in Hle.
        rewrite Nat.min_l in Hf by lia. split; [exact Hf|lia]. }
      rewrite Z.min_l by (unfold zlen; lia). rewrite Hf'. f_equal. f_equal.
      assert (u = mkStream t (p + length b)) as -> by exact Hu. cbn [position]. unfold zlen in Hbn. lia. }
    rewrite Hfull in Hd. assert (length data = p1) as Hpp by congruence. lia.
Qed.
Print Assumptions C94_torn_message.

Example C94_example :
  write_all write_call [PInt U16 258 LE; PVarBytes (VBytes [x41; x42]) LE] (at_end []) = (Ok tt, at_end ([] ++ [x02; x01; x02; x41; x42])) /\
  write_all (gwrite (crash_write PlainException)) [PInt U16 258 LE; PVarBytes (VBytes [x41; x42]) LE] ([], 4%nat) = (Raise PlainException, ([x02; x01; x02; x41], 0%nat)) /\
  write_all (gwrite lossy_write) [PInt U16 258 LE; PVarBytes (VBytes [x41; x42]) LE] ([], [2; 1; 1]%nat) = (Ok tt, ([x02; x01; x02; x41], [])) /\
  Forall checked [GInt U16 LE; GUInt160] /\
  in_order read_call [GInt U16 LE; GBool] (mkStream [x02; x01; x02] 0) = (Ok [VZ 258; VTruth true], mkStream [x02; x01; x02] (length [x02; x01; x02])) /\
  (* a torn message with unchecked fields may be accepted *)
  in_order read_call [GInt U16 LE; GVarBytes 9] (mkStream [x02; x01; x02; x41; x42] 0) = (Ok [VZ 258; VData [x41; x42]], mkStream [x02; x01; x02; x41; x42] 5) /\
  fst (in_order read_call [GInt U16 LE; GVarBytes 9] (mkStream [x02; x01; x02; x41] 0)) = Ok [VZ 258; VData [x41]].
Proof. repeat split. repeat (apply Forall_cons; [exact I|]). apply Forall_nil. Qed.
