(** * L_Overwrite: proofs for S_Overwrite *)
From Coq Require Import Lia ZifyBool ZifyNat.
From Verif Require Import M_Py M_Float M_FloatIO M_UInt M_Writer M_Reader S_IO S_IO2 S_Msg S_Overwrite L_Bytes L_IO L_VarInt L_Hex L_Utf8 L_IO2 L_IO3 L_IO4.

Definition put (d : bytes) (s : stream) : stream := snd (bio_write d s).
Definition puts {A} (m : io A) (r : res A) (d : bytes) : Prop := forall s, m s = (r, put d s).

Lemma bio_write_put d s : bio_write d s = (Ok (zlen d), put d s).
Proof. destruct d; reflexivity. Qed.
Lemma put_nil s : put [] s = s.
Proof. reflexivity. Qed.

Lemma put_eq d s : d <> [] -> put d s =
  mkStream (firstn (position s) (content s) ++ repeat x00 (position s - length (content s)) ++ d ++ skipn (position s + length d) (content s))
           (position s + length d).
Proof. intros H. unfold put, bio_write. destruct d; [congruence|]. cbn [snd]. rewrite <- app_assoc. reflexivity. Qed.

Lemma put_over d s : overwritten s d (put d s).
Proof.
  destruct d as [|b0 d0].
  { rewrite put_nil. split; cbn [length]; intros; try reflexivity; try lia; congruence. }
  set (d := b0 :: d0). assert (Hd : d <> []) by discriminate.
  assert (Hm : match d with [] => length (content s) | _ => Nat.max (length (content s)) (position s + length d) end
               = Nat.max (length (content s)) (position s + length d)) by reflexivity.
  clearbody d. rewrite (put_eq d s Hd).
  destruct s as [c p]. cbn [content position] in *.
  set (a := firstn p c ++ repeat x00 (p - length c)).
  assert (Ha : length a = p). { unfold a. rewrite app_length, firstn_length, repeat_length. lia. }
  assert (Hc : firstn p c ++ repeat x00 (p - length c) ++ d ++ skipn (p + length d) c = a ++ d ++ skipn (p + length d) c)
    by (unfold a; rewrite <- app_assoc; reflexivity).
  rewrite Hc. split; unfold byte_at; cbn [content position].
  - reflexivity.
  - intros i Hi. rewrite nth_error_app2 by lia. rewrite Ha. replace (p + i - p)%nat with i by lia.
    apply nth_error_app1, Hi.
  - intros i Hi [H|H].
    + rewrite nth_error_app1 by lia. unfold a. rewrite nth_error_app1 by (rewrite firstn_length; lia).
      rewrite <- (firstn_skipn p c) at 2. rewrite nth_error_app1 by (rewrite firstn_length; lia). reflexivity.
    + rewrite nth_error_app2 by lia. rewrite Ha. rewrite nth_error_app2 by lia.
      rewrite <- (firstn_skipn (p + length d) c) at 2.
      rewrite (nth_error_app2 (firstn _ _)) by (rewrite firstn_length; lia). rewrite firstn_length.
      f_equal. lia.
  - intros i _ Hi. rewrite nth_error_app1 by lia. unfold a. rewrite nth_error_app2 by (rewrite firstn_length; lia).
    rewrite firstn_length. rewrite (nth_error_nth' _ x00) by (rewrite repeat_length; lia).
    rewrite nth_repeat. reflexivity.
  - rewrite Hm. rewrite !app_length, skipn_length, Ha. lia.
Qed.

Lemma nth_error_ext' {A} (l m : list A) : length l = length m -> (forall i, (i < length l)%nat -> nth_error l i = nth_error m i) -> l = m.
Proof.
  revert m. induction l as [|x l IH]; intros [|y m] Hl H; cbn [length] in Hl; try discriminate; [reflexivity|].
  pose proof (H O ltac:(cbn [length]; lia)) as H0. cbn [nth_error] in H0. injection H0 as ->. f_equal.
  apply IH; [lia|]. intros i Hi. apply (H (S i)). cbn [length]. lia.
Qed.

Lemma over_unique s d s1 s2 : overwritten s d s1 -> overwritten s d s2 -> s1 = s2.
Proof.
  intros H1 H2. destruct s1 as [c1 p1], s2 as [c2 p2].
  assert (p1 = p2). { pose proof (ow_position _ _ _ H1). pose proof (ow_position _ _ _ H2). cbn in *. lia. }
  assert (Hl : length c1 = length c2). { pose proof (ow_length _ _ _ H1). pose proof (ow_length _ _ _ H2). cbn in *. lia. }
  subst p2. f_equal. apply nth_error_ext'; [exact Hl|]. intros i Hi.
  change (byte_at (mkStream c1 p1) i = byte_at (mkStream c2 p1) i).
  destruct (Compare_dec.lt_dec i (length (content s))) as [Hc|Hc].
  - destruct (Compare_dec.lt_dec i (position s)) as [Hp|Hp].
    { rewrite (ow_old _ _ _ H1), (ow_old _ _ _ H2); auto. }
    destruct (Compare_dec.le_dec (position s + length d) i) as [Hq|Hq].
    { rewrite (ow_old _ _ _ H1), (ow_old _ _ _ H2); auto. }
    replace i with (position s + (i - position s))%nat by lia.
    rewrite (ow_new _ _ _ H1), (ow_new _ _ _ H2) by lia. reflexivity.
  - pose proof (ow_length _ _ _ H1) as L1. cbn [content] in L1. destruct d as [|b0 d0]; [lia|].
    destruct (Compare_dec.lt_dec i (position s)) as [Hp|Hp].
    { rewrite (ow_gap _ _ _ H1), (ow_gap _ _ _ H2); auto; try discriminate; lia. }
    replace i with (position s + (i - position s))%nat by lia.
    rewrite (ow_new _ _ _ H1), (ow_new _ _ _ H2) by lia. reflexivity.
Qed.
Lemma over_put s d s' : overwritten s d s' <-> s' = put d s.
Proof. split; [intros H; apply (over_unique s d); [exact H|apply put_over]|intros ->; apply put_over]. Qed.

Lemma over_app s a b s1 s2 : overwritten s a s1 -> overwritten s1 b s2 -> overwritten s (a ++ b) s2.
Proof.
  intros H1 H2. destruct a as [|a0 a'].
  { apply over_put in H1. rewrite put_nil in H1. subst s1. exact H2. }
  destruct b as [|b0 b'].
  { apply over_put in H2. rewrite put_nil in H2. subst s2. rewrite app_nil_r. exact H1. }
  set (a := a0 :: a') in *. set (b := b0 :: b') in *.
  assert (Ha : (0 < length a)%nat) by (cbn; lia). assert (Hb : (0 < length b)%nat) by (cbn; lia).
  pose proof (ow_position _ _ _ H1) as P1. pose proof (ow_position _ _ _ H2) as P2.
  pose proof (ow_length _ _ _ H1) as L1. pose proof (ow_length _ _ _ H2) as L2.
  change (length (content s1) = Nat.max (length (content s)) (position s + length a)) in L1.
  change (length (content s2) = Nat.max (length (content s1)) (position s1 + length b)) in L2.
  assert (Hma : a <> []) by discriminate. assert (Hmb : b <> []) by discriminate.
  assert (L3 : match a ++ b with [] => length (content s) | _ => Nat.max (length (content s)) (position s + length (a ++ b)) end
    = Nat.max (length (content s)) (position s + length (a ++ b))) by reflexivity.
  clearbody a b. rewrite app_length in L3. split; rewrite ?app_length.
  - lia.
  - intros i Hi. destruct (Compare_dec.lt_dec i (length a)) as [Hia|Hia].
    + rewrite nth_error_app1 by lia. rewrite (ow_old _ _ _ H2) by lia. apply (ow_new _ _ _ H1), Hia.
    + rewrite nth_error_app2 by lia. replace (position s + i)%nat with (position s1 + (i - length a))%nat by lia.
      apply (ow_new _ _ _ H2). lia.
  - intros i Hi H. rewrite (ow_old _ _ _ H2) by lia. apply (ow_old _ _ _ H1); lia.
  - intros i _ Hi. rewrite (ow_old _ _ _ H2) by lia. apply (ow_gap _ _ _ H1); [exact Hma|lia].
  - rewrite L3. lia.
Qed.
Lemma put_put a b s : put b (put a s) = put (a ++ b) s.
Proof. apply over_put. apply (over_app s a b (put a s)); apply put_over. Qed.

(** ** the calculus *)
Lemma free_iff {A} (m : io A) : position_free m <-> exists r d, puts m r d.
Proof.
  split; intros (r & d & H); exists r, d; intros s.
  - destruct (H s) as (s' & E & O). apply over_put in O. subst s'. exact E.
  - exists (put d s). split; [apply H|apply put_over].
Qed.
Definition free {A} (m : io A) : Prop := exists r d, puts m r d.
Lemma fr_ret {A} (a : A) : free (iret a).
Proof. exists (Ok a), []. intros s. reflexivity. Qed.
Lemma fr_raise {A} e : free (@iraise A e).
Proof. exists (Raise e), []. intros s. reflexivity. Qed.
Lemma fr_lift {A} (a : res A) : free (ilift a).
Proof. exists a, []. intros s. reflexivity. Qed.
Lemma fr_bind {A B} (m : io A) (f : A -> io B) : free m -> (forall a, free (f a)) -> free (ibind m f).
Proof.
  intros (r & d & Hm) Hf. destruct r as [a|e].
  - destruct (Hf a) as (r2 & d2 & H2). exists r2, (d ++ d2). intros s. unfold ibind. rewrite Hm, H2, put_put. reflexivity.
  - exists (Raise e), d. intros s. unfold ibind. rewrite Hm. reflexivity.
Qed.
Lemma fr_write b : free (bio_write b).
Proof. exists (Ok (zlen b)), b. intros s. apply bio_write_put. Qed.
Lemma fr_stream_write v : free (stream_write v).
Proof. destruct v; first [apply fr_write|apply fr_raise]. Qed.
Ltac fr := repeat first [apply fr_ret|apply fr_raise|apply fr_lift|apply fr_write|apply fr_stream_write|apply fr_bind; [|intros]].
Lemma fr_WriteByte v : free (WriteByte v).
Proof. destruct v; cbn [WriteByte]; fr. destruct (_ && _); fr. Qed.
Lemma fr_WriteBytes v u : free (WriteBytes v u).
Proof. unfold WriteBytes. destruct u; fr. destruct (unhexlify v) as [b|[]]; fr. Qed.
Lemma fr_pack e sg n z : free (pack_int e sg n z).
Proof. unfold pack_int. apply fr_bind; [fr|]. intros; apply fr_WriteBytes. Qed.
Lemma fr_WriteVarInt v e : free (WriteVarInt v e).
Proof.
  unfold WriteVarInt, WriteUInt16, WriteUInt32, WriteUInt64. destruct (as_int v) as [z|]; [|fr].
  destruct (z <? 0); [fr|]. destruct (z <? 253); [apply fr_bind; [apply fr_WriteByte|intros; fr]|].
  destruct (z <=? 65535); [|destruct (z <=? 4294967295)];
  (apply fr_bind; [apply fr_WriteByte|intros; apply fr_bind; [apply fr_pack|intros; fr]]).
Qed.
Lemma fr_Serialize u : free (uint_Serialize u).
Proof. apply fr_bind; [apply fr_WriteBytes|intros; fr]. Qed.
Lemma fr_all {A} (ser : A -> io unit) l : (forall x, free (ser x)) -> free (serialize_all ser l).
Proof. intros H. induction l as [|x l IH]; [fr|]. cbn [serialize_all]. apply fr_bind; [apply H|intros; exact IH]. Qed.
Lemma fr_zeros n : free (write_zeros n).
Proof. induction n as [|n IH]; [fr|]. cbn [write_zeros]. apply fr_bind; [apply fr_WriteByte|intros; exact IH]. Qed.
Lemma fr_wrh x : free (write_reversed_hex x).
Proof. apply fr_bind; [fr|]. intros. apply fr_bind; [apply fr_WriteBytes|intros; fr]. Qed.

Lemma fr_do c : match c with WArray k _ => forall x, free (k_ser k x) | _ => True end -> free (do_write c).
Proof.
  destruct c; cbn [do_write]; intros Hk; try (apply fr_bind; [|intros; apply fr_ret]).
  - rewrite write_int_eq. apply fr_pack.
  - apply fr_WriteByte.
  - apply fr_WriteBytes.
  - apply fr_bind; [fr|intros; apply fr_WriteBytes].
  - apply fr_WriteBytes.
  - apply fr_WriteVarInt.
  - apply fr_bind; [fr|]. intros. apply fr_bind; [apply fr_WriteVarInt|intros; apply fr_WriteBytes].
  - unfold WriteVarString. apply fr_bind; [fr|]. intros w. apply fr_bind; [fr|]. intros n.
    destruct w; fr; try apply fr_WriteVarInt; apply fr_WriteBytes.
  - unfold WriteFixedString. apply fr_bind; [fr|]. intros b. cbv zeta. destruct (zlen b >? n); [fr|].
    apply fr_bind; [apply fr_WriteBytes|intros; apply fr_zeros].
  - unfold WriteUInt160. destruct u as [u|]; [|fr]. destruct (u_cls u); first [apply fr_raise|apply fr_Serialize].
  - unfold WriteUInt256. destruct u as [u|]; [|fr]. destruct (u_cls u); first [apply fr_raise|apply fr_Serialize].
  - apply fr_WriteBytes.
  - apply fr_all, fr_wrh.
  - unfold WriteHashes. apply fr_bind; [apply fr_WriteVarInt|intros; apply fr_all, fr_wrh].
  - apply fr_pack.
  - unfold WriteSerializableArray. destruct l as [l|]; [|apply fr_WriteByte]. apply fr_bind; [apply fr_WriteVarInt|intros; apply fr_all, Hk].
Qed.

Lemma fr_returned c : item_free c -> free (returned c).
Proof.
  intros H. destruct c as [c|v e|v e].
  - assert (Hd : free (do_write c)).
    { apply fr_do. destruct c; try exact I. intros x. apply free_iff, H. }
    clear H. destruct c; cbn [returned]; try (apply fr_bind; [exact Hd|intros; apply fr_ret]).
    + apply fr_bind; [rewrite write_int_eq; apply fr_pack|intros; fr].
    + apply fr_bind; [apply fr_WriteBytes|intros; fr].
    + unfold WriteChar. apply fr_bind; [apply fr_bind; [fr|intros; apply fr_WriteBytes]|intros; fr].
    + apply fr_bind; [apply fr_WriteBytes|intros; fr].
    + apply fr_WriteVarInt.
    + unfold WriteVarBytes. apply fr_bind; [|intros; fr]. apply fr_bind; [fr|]. intros. apply fr_bind; [apply fr_WriteVarInt|intros; apply fr_WriteBytes].
    + apply fr_bind; [apply fr_pack|intros; fr].
  - cbn [returned]. unfold WriteFloat. apply fr_bind; [|intros; fr]. apply fr_bind; [fr|intros; apply fr_WriteBytes].
  - cbn [returned]. unfold WriteDouble. apply fr_bind; [|intros; fr]. apply fr_bind; [fr|intros; apply fr_WriteBytes].
Qed.

Lemma anywhere c : item_free c -> position_free (returned c).
Proof. intros H. apply free_iff, fr_returned, H. Qed.

Lemma history l : Forall item_free l -> exists d, forall s, overwritten s d (after_any l s).
Proof.
  induction 1 as [|c l Hc Hl (d & IH)]; [exists []; intros s; apply over_put; reflexivity|].
  destruct (fr_returned c Hc) as (r & d1 & H1). exists (d1 ++ d). intros s. unfold after_any. cbn [fold_left].
  rewrite H1. cbn [snd]. change (fold_left _ l ?t) with (after_any l t).
  apply (over_app s d1 d (put d1 s)); [apply put_over|apply IH].
Qed.

Lemma put_end d pre : put d (at_end pre) = at_end (pre ++ d).
Proof. unfold put. rewrite bio_write_end. reflexivity. Qed.
Lemma over_end d pre s' : overwritten (at_end pre) d s' <-> s' = at_end (pre ++ d).
Proof. rewrite over_put, put_end. reflexivity. Qed.

Lemma everywhere {A} (m : io A) ret enc : free m -> writes m ret enc ->
  forall s, exists s', m s = (Ok ret, s') /\ overwritten s enc s'.
Proof.
  intros (r & d & H) Hw s. pose proof (Hw []) as W. rewrite H, put_end in W. cbn [app] in W.
  assert (r = Ok ret) as -> by congruence. assert (d = enc) as -> by (unfold at_end in W; congruence).
  exists (put enc s). split; [apply H|apply put_over].
Qed.

(** ** patching a field *)
Lemma fr_item kv : free (write_item kv).
Proof.
  destruct kv as [k v]. destruct k, v; cbn [write_item]; try apply fr_raise.
  - apply (fr_do (WInt t z e) I).
  - apply (fr_do (WBool (VBool b)) I).
  - apply (fr_do (WByte (VInt z)) I).
  - apply (fr_do (WChar (VBytes b)) I).
  - apply (fr_do (WVarInt (VInt z) LE) I).
  - apply (fr_do (WVarBytes (VBytes b) LE) I).
  - apply (fr_do (WVarString (VStr s)) I).
  - apply (fr_do (WFixedString s n) I).
  - apply (fr_do (WFixed8 z) I).
  - apply (fr_do (WUInt160 (Some u)) I).
  - apply (fr_do (WUInt256 (Some u)) I).
  - apply (fr_do (WHashes (map VStr l)) I).
  - apply (fr_do (WArray UInt256_klass (Some l))). intros x. apply fr_Serialize.
Qed.
Lemma fr_message m : free (write_message m).
Proof. induction m as [|kv m IH]; cbn [write_message]; [fr|]. apply fr_bind; [apply fr_item|intros; exact IH]. Qed.

Definition kind_width (k : kind) : nat :=
  match k with
  | KInt t _ => type_width t | KBool | KByte | KChar => 1 | KFixed8 => 8 | KUInt160 => 20 | KUInt256 => 32
  | KFixedString n => Z.to_nat n | _ => 0
  end%nat.
Lemma writes_inj {A} (m : io A) r1 d1 r2 d2 : writes m r1 d1 -> writes m r2 d2 -> d1 = d2.
Proof. intros H1 H2. pose proof (H1 []) as E1. rewrite (H2 []) in E1. cbn [app] in E1. unfold at_end in E1. congruence. Qed.
Lemma width_ok k v enc : fixed_width k -> carriable (k, v) -> writes (write_item (k, v)) tt enc -> length enc = kind_width k.
Proof.
  intros Hk Hc Hw. destruct k, v; try contradiction; cbn [carriable] in Hc; cbn [write_item] in Hw; cbn [kind_width].
  - destruct (int_roundtrip t e z Hc) as (d & He & Hd & _). rewrite (writes_inj _ _ _ _ _ Hw (writes_seq_ret _ _ _ _ Hd)). apply He.
  - rewrite (writes_inj _ _ _ _ _ Hw (writes_seq_ret _ _ _ _ (WriteBool_writes (VBool b)))). reflexivity.
  - rewrite (writes_inj _ _ _ _ _ Hw (WriteByte_int z Hc)). reflexivity.
  - destruct b as [|c [|d r]]; try discriminate. rewrite (writes_inj _ _ _ _ _ Hw (writes_seq_ret _ _ _ _ (WriteChar_writes c))). reflexivity.
  - destruct Hc as (b & Hd & Hm & Hx & Hn).
    destruct (fixed_string_plain s b (rstrip0 b) n Hd Hm Hx (or_introl Hn) (rstrip0_spec b)) as (d & Hl & _ & Hd' & _).
    rewrite (writes_inj _ _ _ _ _ Hw Hd'). unfold zlen in Hl. lia.
  - destruct (fixed8_rt z Hc) as (d & Hl & _ & Hd & _). rewrite (writes_inj _ _ _ _ _ Hw (writes_seq_ret _ _ _ _ Hd)). exact Hl.
  - destruct (u160_plain u (proj1 Hc) (proj2 Hc)) as [Hd _]. rewrite (writes_inj _ _ _ _ _ Hw Hd). apply Hc.
  - destruct (u256_plain u (proj1 Hc) (proj2 Hc)) as [Hd _]. rewrite (writes_inj _ _ _ _ _ Hw Hd). apply Hc.
Qed.

Lemma put_middle a b b' c p : length b = length b' -> p = length a ->
  put b' (mkStream (a ++ b ++ c) p) = mkStream (a ++ b' ++ c) (p + length b').
Proof.
  intros Hl ->. destruct b' as [|x b0]. { destruct b; [|discriminate]. rewrite put_nil. cbn [app length]. rewrite Nat.add_0_r. reflexivity. }
  rewrite put_eq by discriminate. set (b' := x :: b0) in *. clearbody b'. cbn [content position]. f_equal.
  rewrite firstn_app_exact. f_equal. rewrite !app_length. replace (length a - (length a + (length b + length c)))%nat with O by lia.
  cbn [repeat app]. f_equal. rewrite <- Hl, app_assoc, <- app_length. apply skipn_app_exact.
Qed.

Lemma writes_messages a b e1 e2 : writes (write_message a) tt e1 -> writes (write_message b) tt e2 -> writes (write_message (a ++ b)) tt (e1 ++ e2).
Proof.
  revert e1. induction a as [|kv a IH]; intros e1 H1 H2.
  - rewrite (writes_inj _ _ _ _ _ H1 (writes_ret tt)). exact H2.
  - cbn [write_message app] in *. intros pre. specialize (H1 pre). unfold ibind in *.
    destruct (fr_item kv) as (r & d & H). rewrite H, put_end in *. destruct r as [u|e]; [|discriminate].
    destruct (fr_message a) as (r' & d' & H'). rewrite H', put_end in H1.
    assert (r' = Ok tt) as -> by congruence. assert (e1 = d ++ d') as ->.
    { assert ((pre ++ d) ++ d' = pre ++ e1) as E by (unfold at_end in H1; congruence). rewrite <- app_assoc in E. apply app_inv_head in E. congruence. }
    rewrite (IH d'); [rewrite <- !app_assoc; reflexivity| |exact H2].
    intros q. rewrite H', put_end. reflexivity.
Qed.

Lemma patch before k v v' after pre : Forall carriable before -> carriable (k, v) -> carriable (k, v') -> Forall carriable after ->
  fixed_width k -> exists s0 s1 s2 s3 out,
  write_message before (at_end pre) = (Ok tt, s0) /\
  write_message ((k, v) :: after) s0 = (Ok tt, s1) /\
  write_item (k, v') (seek (position s0) s1) = (Ok tt, s2) /\
  read_message (map fst (before ++ (k, v) :: after)) (seek (length pre) s2) = (Ok out, s3) /\
  Forall2 comes_back (before ++ (k, v') :: after) out /\
  length (content s2) = length (content s1) /\ position s3 = length (content s2).
Proof.
  intros Hb Hv Hv' Ha Hk.
  destruct (message_ok before Hb) as (e1 & o1 & W1 & _ & _).
  destruct (message_ok after Ha) as (e3 & o3 & W3 & _ & _).
  destruct (item_ok (k, v) Hv) as (e2 & y & W2 & _ & _).
  destruct (item_ok (k, v') Hv') as (e2' & y' & W2' & _ & _).
  destruct (message_ok (before ++ (k, v') :: after)) as (en & out & Wn & Rn & Cn).
  { apply Forall_app. split; [exact Hb|]. constructor; assumption. }
  pose proof (width_ok k v e2 Hk Hv W2) as L2. pose proof (width_ok k v' e2' Hk Hv' W2') as L2'.
  assert (en = e1 ++ e2' ++ e3) as ->.
  { apply (writes_inj _ _ _ tt _ Wn). apply writes_messages; [exact W1|]. cbn [write_message]. eapply writes_bind; [exact W2'|exact W3]. }
  exists (at_end (pre ++ e1)), (at_end ((pre ++ e1) ++ e2 ++ e3)).
  destruct (everywhere _ _ _ (fr_item (k, v')) W2' (seek (position (at_end (pre ++ e1))) (at_end ((pre ++ e1) ++ e2 ++ e3)))) as (s2 & E2 & O2).
  apply over_put in O2. unfold seek, at_end in O2. cbn [content position] in O2. rewrite (put_middle (pre ++ e1) e2 e2' e3) in O2 by (reflexivity || lia).
  exists s2, (mkStream (content s2) (length (content s2))), out.
  split; [apply W1|]. split. { cbn [write_message]. unfold ibind. rewrite W2, W3, app_assoc. reflexivity. }
  split; [exact E2|]. subst s2. cbn [content].
  split; [|split; [exact Cn|split]].
  - rewrite map_app. cbn [map fst].
    change (k :: map fst after) with (map fst ((k, v') :: after)). rewrite <- map_app.
    rewrite (Rn (seek (length pre) _) []).
    + unfold advance, seek, at_end. cbn [content position]. do 2 f_equal. rewrite !app_length. lia.
    + unfold remaining, seek. cbn [content position]. rewrite <- app_assoc, skipn_app_exact, app_nil_r. reflexivity.
  - unfold at_end. cbn [content]. rewrite !app_length. lia.
  - reflexivity.
Qed.
