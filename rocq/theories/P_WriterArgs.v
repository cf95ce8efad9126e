(** * P_WriterArgs: properties C91, C92 *)
From Coq Require Import String Lia ZifyBool ZifyNat.
From Verif Require Import M_Py M_UInt M_Writer M_Reader M_WriterArgs S_IO S_WriterArgs L_Bytes L_IO L_VarInt L_Hex L_Utf8 L_IO2.

(** ** C91 WriteVarString with an encoding other than UTF-8 *)
Theorem C91_default_is_utf8 : forall v s, WriteVarString_enc EUtf8 v s = WriteVarString v s.
Proof.
  assert (A : forall b, bytes_decode EUtf8 (hexlify b) = Ok (ascii_decode (hexlify b))).
  { intros b. unfold bytes_decode. replace (forallb _ _) with true; [reflexivity|]. symmetry. induction b as [|x b IH]; [reflexivity|].
    unfold hexlify in *. cbn [hex map forallb]. rewrite IH. destruct x; reflexivity. }
  intros v s. unfold WriteVarString_enc, WriteVarString, ibind, ilift. destruct v; cbn [str_encode]; try reflexivity.
  - cbn [py_len]. rewrite A. reflexivity.
  - cbn [py_len]. rewrite A. reflexivity.
  - destruct (utf8_encode s0); [|reflexivity]. cbn [rbind py_len]. rewrite A. reflexivity.
Qed.
Print Assumptions C91_default_is_utf8.

Lemma decode_one_byte c limit b : is_one_byte c limit -> bytes_decode c (hexlify b) = Ok (hex b).
Proof.
  rewrite <- hexlify_str. intros [[-> _]|[-> _]]; [|reflexivity]. unfold bytes_decode. replace (forallb _ _) with true; [reflexivity|]. symmetry.
  induction b as [|x b IH]; [reflexivity|]. unfold hexlify in *. cbn [hex map forallb]. rewrite IH. destruct x; reflexivity.
Qed.
Lemma encode_one_byte c limit s : is_one_byte c limit -> str_encode c s = if forallb (fun x => x <? limit) s then Ok (map z2b s) else Raise UnicodeError.
Proof. intros [[-> ->]|[-> ->]]; reflexivity. Qed.

(** ASCII and Latin-1: one byte per character, behind the length; ReadVarString gives the bytes back. *)
Theorem C91_one_byte : forall c limit s max, is_one_byte c limit -> Forall (fun x => 0 <= x < limit) s -> zlen s <= maxsize -> exists p b,
  varint LE (zlen s) p /\ map b2z b = s /\ writes (WriteVarString_enc c (VStr s)) tt (p ++ b) /\ (zlen s <= max -> reads (ReadVarString max) (p ++ b) b).
Proof.
  intros c limit s max Hc Hs H. pose proof (zlen_nonneg s). pose proof maxsize_lt. exists (varenc LE (zlen s)), (map z2b s).
  assert (Hv : varint LE (zlen s) (varenc LE (zlen s))) by (apply varenc_spec; lia). assert (L : zlen (map z2b s) = zlen s) by (unfold zlen; rewrite map_length; reflexivity).
  split; [exact Hv|]. split.
  - clear - Hc Hs. induction Hs as [|x s Hx Hs IH]; [reflexivity|]. cbn [map]. rewrite IH. f_equal. rewrite b2z_z2b. apply Z.mod_small. destruct Hc as [[_ ->]|[_ ->]]; lia.
  - split.
    + unfold WriteVarString_enc. rewrite (encode_one_byte _ _ _ Hc). replace (forallb _ _) with true.
      2: { symmetry. apply forallb_forall. intros x Hx. apply (proj1 (Forall_forall _ _) Hs) in Hx. lia. }
      eapply writes_lift; [reflexivity|]. cbn [py_len]. eapply writes_lift; [reflexivity|]. rewrite (decode_one_byte _ _ _ Hc). eapply writes_lift; [reflexivity|]. rewrite L.
      eapply writes_bind; [apply WriteVarInt_writes; lia|]. eapply writes_seq_ret. apply WriteBytes_str_hex, hex_denotes_hex.
    + intros Hm. eapply reads_bind; [apply ReadVarInt_reads; [exact Hv|lia]|]. rewrite <- L. apply unpack_s_reads. lia.
Qed.
Print Assumptions C91_one_byte.
Theorem C91_one_byte_refused : forall c limit s, is_one_byte c limit -> ~ Forall (fun x => x < limit) s -> refuses (WriteVarString_enc c (VStr s)) UnicodeError.
Proof.
  intros c limit s Hc Hs. apply refuses_lift. rewrite (encode_one_byte _ _ _ Hc). destruct (forallb _ _) eqn:F; [exfalso|reflexivity].
  apply Hs, Forall_forall. intros x Hx. apply (proj1 (forallb_forall _ _) F) in Hx. lia.
Qed.
Print Assumptions C91_one_byte_refused.

(** UTF-16: hex digits taken in pairs are not ASCII *)
Lemma pair_unit e x : exists a b u, hexlify [x] = [a; b] /\ bytes2z e [a; b] = u /\ is_surrogate u = false /\ 128 <= u.
Proof. destruct e, x; do 3 eexists; (split; [reflexivity|]); (split; [reflexivity|]); split; try reflexivity; vm_compute; discriminate. Qed.
Lemma hexlify_cons x b : hexlify (x :: b) = hexlify [x] ++ hexlify b.
Proof. reflexivity. Qed.
Lemma decode16 e b : exists t, utf16_decode e (hexlify b) = Some t /\ length t = length b /\ Forall (fun c => 128 <= c) t.
Proof.
  induction b as [|x b (t & IH & L & F)]; [exists []; repeat split; constructor|]. rewrite hexlify_cons. destruct (pair_unit e x) as (a & c & u & -> & E & S & U).
  exists (u :: t). cbn [app utf16_decode]. rewrite E, S, IH. repeat split; [cbn [length]; rewrite L; reflexivity|constructor; assumption].
Qed.
Lemma bytes_decode16 c bom b : is_utf16 c bom -> exists t, bytes_decode c (hexlify b) = Ok t /\ length t = length b /\ Forall (fun c => 128 <= c) t.
Proof.
  intros H. assert (exists e, bytes_decode c (hexlify b) = or_unicode_error (utf16_decode e (hexlify b))) as [e ->].
  { destruct H as [[-> _]|[[-> _]|[-> _]]]; [exists LE|exists LE; reflexivity|exists BE; reflexivity]. destruct b as [|x b]; [reflexivity|]. destruct x; reflexivity. }
  destruct (decode16 e b) as (t & -> & L & F). exists t. repeat split; assumption.
Qed.
Lemma enc16_size c bom s : is_utf16 c bom -> scalar_text s -> exists b, str_encode c s = Ok b /\ zlen b = bom + utf16_size s.
Proof.
  intros H Hs. assert (E : forall e, exists b, wide_encode (utf16_char e) s = Ok b /\ zlen b = utf16_size s).
  { intros e. unfold wide_encode. rewrite scalar_not_surrogate by exact Hs. eexists. split; [reflexivity|]. clear Hs. induction s as [|x s IH]; [reflexivity|].
    cbn [flat_map utf16_size fold_right]. unfold zlen in *. rewrite app_length, Nat2Z.inj_add, IH. f_equal. unfold utf16_char. destruct (x <? 65536), e; reflexivity. }
  destruct H as [[-> ->]|[[-> ->]|[-> ->]]]; cbn [str_encode]; [destruct (E LE) as (b & -> & L)|destruct (E LE) as (b & -> & L)|destruct (E BE) as (b & -> & L)];
  eexists; (split; [reflexivity|]); unfold zlen in *; cbn [length]; lia.
Qed.
Lemma fail16 c bom (v : pyval) b : is_utf16 c bom -> b <> [] -> zlen b <= maxsize -> v = VBytes b \/ v = VBytearray b -> exists p, varint LE (zlen b) p /\
  fails_after (WriteVarString_enc c v) ValueError p.
Proof.
  intros H N Hl Hv. pose proof (zlen_nonneg b). pose proof maxsize_lt. exists (varenc LE (zlen b)). split; [apply varenc_spec; lia|]. intros pre.
  destruct (bytes_decode16 c bom b H) as (t & E & L & F).
  assert (U : unhexlify (VStr t) = Raise ValueError).
  { unfold unhexlify. destruct b as [|x b]; [congruence|]. destruct t as [|y t]; [discriminate L|]. inversion F. subst. cbn [forallb]. replace (y <? 128) with false by lia. reflexivity. }
  unfold WriteVarString_enc, ibind, ilift. destruct Hv as [-> | ->]; cbn [py_len]; rewrite E; rewrite (WriteVarInt_writes LE (zlen b) ltac:(lia) pre); cbn [WriteBytes]; rewrite U; reflexivity.
Qed.
(** Writing a text in UTF-16 appends the length and then raises, so the stream ends in a length
    without data; only the empty text without byte order mark is written. *)
Theorem C91_utf16_fails : forall c bom s, is_utf16 c bom -> scalar_text s -> 0 < bom + utf16_size s <= maxsize -> exists p, varint LE (bom + utf16_size s) p /\
  fails_after (WriteVarString_enc c (VStr s)) ValueError p.
Proof.
  intros c bom s H Hs Hl. destruct (enc16_size c bom s H Hs) as (b & E & L). rewrite <- L in *.
  destruct (fail16 c bom (VBytes b) b H ltac:(intros ->; unfold zlen in Hl; cbn in Hl; lia) ltac:(lia) (or_introl eq_refl)) as (p & V & W). exists p. split; [exact V|].
  intros pre. rewrite <- W. unfold WriteVarString_enc. rewrite E. reflexivity.
Qed.
Print Assumptions C91_utf16_fails.
Theorem C91_utf16_bytes_fail : forall c bom b, is_utf16 c bom -> 0 < zlen b <= maxsize -> exists p, varint LE (zlen b) p /\
  fails_after (WriteVarString_enc c (VBytes b)) ValueError p /\ fails_after (WriteVarString_enc c (VBytearray b)) ValueError p.
Proof.
  intros c bom b H Hl. assert (N : b <> []) by (intros ->; unfold zlen in Hl; cbn in Hl; lia).
  destruct (fail16 c bom (VBytes b) b H N ltac:(lia) (or_introl eq_refl)) as (p & V & W). exists p. split; [exact V|]. split; [exact W|].
  exact W.
Qed.
Print Assumptions C91_utf16_bytes_fail.
Theorem C91_utf16_empty : forall c, is_utf16 c 0 -> writes (WriteVarString_enc c (VStr [])) tt [x00].
Proof.
  intros c H. assert (exists e, c = e /\ (e = EUtf16LE \/ e = EUtf16BE)) as (e & -> & He) by (exists c; destruct H as [[_ H]|[[-> _]|[-> _]]]; [lia|auto|auto]).
  destruct He as [-> | ->]; intros pre; unfold at_end, WriteVarString_enc; cbn; unfold bio_write; cbn;
  rewrite firstn_all, Nat.sub_diag, app_nil_r, skipn_all2, app_length by lia; reflexivity.
Qed.
Print Assumptions C91_utf16_empty.

(** UTF-32: the hex digits do not decode at all; nothing is written. *)
Lemma four_unit e x y : exists a b c d, hexlify [x] = [a; b] /\ hexlify [y] = [c; d] /\ (1114111 <? bytes2z e [a; b; c; d]) = true.
Proof.
  assert (B : forall z, exists a b, hexlify [z] = [a; b] /\ 48 <= b2z a < 256 /\ 48 <= b2z b < 256).
  { intros z. destruct z; do 2 eexists; (split; [reflexivity|]); vm_compute; repeat split; congruence. }
  destruct (B x) as (a & b & Ex & Ha & Hb), (B y) as (c & d & Ey & Hc & Hd). exists a, b, c, d. split; [exact Ex|]. split; [exact Ey|].
  destruct e; unfold bytes2z, order_bytes; cbn [rev app le2z]; lia.
Qed.
Lemma decode32 e b : b <> [] -> utf32_decode e (hexlify b) = None.
Proof.
  destruct b as [|x [|y b]]; [congruence| |]; intros _; [destruct x; reflexivity|].
  rewrite hexlify_cons, (hexlify_cons y). destruct (four_unit e x y) as (a1 & a2 & a3 & a4 & -> & -> & U). cbn [app utf32_decode]. rewrite U. reflexivity.
Qed.
Lemma bytes_decode32 c b : is_utf32 c -> b <> [] -> bytes_decode c (hexlify b) = Raise UnicodeError.
Proof.
  intros H N. assert (exists e, bytes_decode c (hexlify b) = or_unicode_error (utf32_decode e (hexlify b))) as [e ->].
  { destruct H as [->|[->| ->]]; [exists LE|exists LE; reflexivity|exists BE; reflexivity]. destruct b as [|x b]; [congruence|]. destruct x; reflexivity. }
  rewrite decode32 by exact N. reflexivity.
Qed.
Theorem C91_utf32_refused : forall c v, is_utf32 c -> (exists s, v = VStr s /\ (c = EUtf32 \/ s <> [])) \/ (exists b, b <> [] /\ (v = VBytes b \/ v = VBytearray b)) ->
  refuses (WriteVarString_enc c v) UnicodeError.
Proof.
  intros c v H [(s & -> & Ns)|(b & N & Hv)] st.
  - unfold WriteVarString_enc, ibind, ilift. assert (E : str_encode c s = Raise UnicodeError \/ exists b, b <> [] /\ str_encode c s = Ok b).
    { assert (F : forall e, s <> [] -> flat_map (utf32_char e) s <> []) by (intros e N; destruct s as [|x s]; [congruence|]; destruct e; discriminate).
      destruct H as [->|[->| ->]]; cbn [str_encode]; unfold wide_encode; destruct (existsb is_surrogate s); try (left; reflexivity); right; cbn [rbind];
      eexists; (split; [|reflexivity]); try discriminate; apply F; destruct Ns as [Q|]; [discriminate Q|assumption|discriminate Q|assumption]. }
    destruct E as [-> |(b & N & ->)]; [reflexivity|]. cbn [rbind py_len]. rewrite bytes_decode32 by assumption. reflexivity.
  - unfold WriteVarString_enc, ibind, ilift. destruct Hv as [-> | ->]; cbn [py_len]; rewrite bytes_decode32 by assumption; reflexivity.
Qed.
Print Assumptions C91_utf32_refused.
(** Lone surrogates are refused in every wide encoding. *)
Theorem C91_surrogates_refused : forall c bom s, is_utf16 c bom \/ is_utf32 c -> Forall code_point s -> ~ scalar_text s -> refuses (WriteVarString_enc c (VStr s)) UnicodeError.
Proof.
  intros c bom s H Hc Hn. apply refuses_lift.
  assert (E : existsb is_surrogate s = true). { pose proof (utf8_encode_bad s Hc Hn) as U. unfold utf8_encode in U. destruct (existsb is_surrogate s); [reflexivity|discriminate U]. }
  destruct H as [[[-> _]|[[-> _]|[-> _]]]|[->|[->| ->]]]; cbn [str_encode]; unfold wide_encode; rewrite E; reflexivity.
Qed.
Print Assumptions C91_surrogates_refused.
(** anything that is neither text nor bytes is a TypeError, and nothing is written *)
Theorem C91_other_types : forall c v, (forall s, v <> VStr s) -> (forall b, v <> VBytes b /\ v <> VBytearray b) -> refuses (WriteVarString_enc c v) TypeError.
Proof.
  intros c v Ns Nb st. unfold WriteVarString_enc, ibind, ilift. destruct v as [b|b|s| | | | |]; try reflexivity; [destruct (proj1 (Nb b) eq_refl)|destruct (proj2 (Nb b) eq_refl)|destruct (Ns s eq_refl)].
Qed.
Print Assumptions C91_other_types.
(** the codecs of the model: decoding what they encode gives the text back *)
Lemma two e c : 0 <= c < 65536 -> exists x y, z2bytes e 2 c = [x; y] /\ bytes2z e [x; y] = c.
Proof.
  intros C. assert (L : length (z2bytes e 2 c) = 2%nat) by apply z2bytes_length. pose proof (bytes2z_z2bytes e 2 c) as V. change (256 ^ Z.of_nat 2) with 65536 in V. rewrite Z.mod_small in V by lia.
  destruct (z2bytes e 2 c) as [|x [|y [|]]]; try discriminate. exists x, y. auto.
Qed.
Lemma four e c : 0 <= c < 4294967296 -> exists x y z w, z2bytes e 4 c = [x; y; z; w] /\ bytes2z e [x; y; z; w] = c.
Proof.
  intros C. assert (L : length (z2bytes e 4 c) = 4%nat) by apply z2bytes_length. pose proof (bytes2z_z2bytes e 4 c) as V. change (256 ^ Z.of_nat 4) with 4294967296 in V. rewrite Z.mod_small in V by lia.
  destruct (z2bytes e 4 c) as [|x [|y [|z [|w [|]]]]]; try discriminate. exists x, y, z, w. auto.
Qed.
Lemma utf16_roundtrip e s : Forall code_point s -> existsb is_surrogate s = false -> utf16_decode e (flat_map (utf16_char e) s) = Some s.
Proof.
  induction 1 as [|c s C _ IH]; intros S; [reflexivity|]. cbn [existsb] in S. apply orb_false_iff in S. destruct S as (S & Ss). specialize (IH Ss). cbn [flat_map]. unfold utf16_char at 1.
  unfold code_point in C. unfold is_surrogate in S. destruct (c <? 65536) eqn:T.
  - destruct (two e c ltac:(lia)) as (x & y & -> & V). cbn [app utf16_decode]. rewrite V. unfold is_surrogate. rewrite S. rewrite IH. reflexivity.
  - pose proof (Z.div_mod (c - 65536) 1024 ltac:(lia)) as DM. pose proof (Z.mod_pos_bound (c - 65536) 1024 ltac:(lia)) as MB.
    assert (DB : 0 <= (c - 65536) / 1024 < 1024) by (split; [apply Z.div_pos; lia|apply Z.div_lt_upper_bound; lia]).
    destruct (two e (55296 + (c - 65536) / 1024) ltac:(lia)) as (x & y & -> & V). destruct (two e (56320 + (c - 65536) mod 1024) ltac:(lia)) as (z & w & -> & V').
    cbn [app utf16_decode]. rewrite V, V'. unfold is_surrogate. replace (_ && _) with true by lia. replace (_ && _ && _) with true by lia. rewrite IH. cbn [option_map]. do 2 f_equal. lia.
Qed.
Lemma utf32_roundtrip e s : Forall code_point s -> existsb is_surrogate s = false -> utf32_decode e (flat_map (utf32_char e) s) = Some s.
Proof.
  induction 1 as [|c s C _ IH]; intros S; [reflexivity|]. cbn [existsb] in S. apply orb_false_iff in S. destruct S as (S & Ss). specialize (IH Ss). cbn [flat_map]. unfold utf32_char at 1.
  unfold code_point in C. destruct (four e c ltac:(lia)) as (x & y & z & w & -> & V). cbn [app utf32_decode]. rewrite V, S, IH. replace (1114111 <? c) with false by lia. reflexivity.
Qed.
Theorem C91_codecs : forall c s b, c <> EUtf8 -> Forall code_point s -> str_encode c s = Ok b -> bytes_decode c b = Ok s.
Proof.
  intros c s b N C. assert (W : forall f, wide_encode f s = Ok b -> existsb is_surrogate s = false /\ b = flat_map f s).
  { intros f. unfold wide_encode. destruct (existsb _ _); [discriminate|]. intros E. split; [reflexivity|congruence]. }
  assert (W2 : forall f pre, (do b <- wide_encode f s; Ok (pre ++ b)) = Ok b -> existsb is_surrogate s = false /\ b = pre ++ flat_map f s).
  { intros f pre. unfold wide_encode. destruct (existsb _ _); [discriminate|]. intros E. split; [reflexivity|]. cbn [rbind] in E. congruence. }
  assert (O : forall k, k <= 256 -> forallb (fun x => x <? k) s = true -> ascii_decode (map z2b s) = s /\ (k <= 128 -> forallb (fun x => b2z x <? 128) (map z2b s) = true)).
  { intros k K F. clear - C K F. induction C as [|x s X _ IH]; [split; reflexivity|]. cbn [forallb] in F. apply andb_true_iff in F. destruct F as (F1 & F2). destruct (IH F2) as (A & B). unfold code_point in X.
    unfold ascii_decode in *. cbn [map forallb]. rewrite A, b2z_z2b, Z.mod_small by lia. split; [reflexivity|]. intros K2. rewrite (B K2). lia. }
  destruct c; try congruence; cbn [str_encode bytes_decode]; intros E.
  - unfold ascii_encode in E. destruct (forallb _ s) eqn:F; [|discriminate]. destruct (O 128 ltac:(lia) F) as (A & B). assert (b = map z2b s) as -> by congruence. rewrite (B ltac:(lia)), A. reflexivity.
  - destruct (forallb _ s) eqn:F; [|discriminate]. destruct (O 256 ltac:(lia) F) as (A & _). assert (b = map z2b s) as -> by congruence. rewrite A. reflexivity.
  - apply (W2 _ [xff; xfe]) in E. destruct E as (S & ->). cbn [app]. rewrite (utf16_roundtrip LE s C S). reflexivity.
  - apply W in E. destruct E as (S & ->). rewrite (utf16_roundtrip LE s C S). reflexivity.
  - apply W in E. destruct E as (S & ->). rewrite (utf16_roundtrip BE s C S). reflexivity.
  - apply (W2 _ [xff; xfe; x00; x00]) in E. destruct E as (S & ->). cbn [app]. rewrite (utf32_roundtrip LE s C S). reflexivity.
  - apply W in E. destruct E as (S & ->). rewrite (utf32_roundtrip LE s C S). reflexivity.
  - apply W in E. destruct E as (S & ->). rewrite (utf32_roundtrip BE s C S). reflexivity.
Qed.
Print Assumptions C91_codecs.
Example C91_example : WriteVarString_enc EUtf16LE (VStr (str "hi")) (at_end []) = (Raise ValueError, at_end [x04]) /\
  WriteVarString_enc EUtf16 (VStr []) (at_end []) = (Raise ValueError, at_end [x02]) /\
  WriteVarString_enc EUtf32LE (VStr (str "hi")) (at_end []) = (Raise UnicodeError, at_end []) /\
  WriteVarString_enc ELatin1 (VStr [233]) (at_end []) = (Ok tt, at_end [x01; xe9]) /\ WriteVarString_enc EAscii (VStr [233]) (at_end []) = (Raise UnicodeError, at_end []).
Proof. repeat split; vm_compute; reflexivity. Qed.

(** ** C92 The integer writers and arguments that are not plain ints *)
Theorem C92_int_like : forall t v z e s, stands_for v z -> write_any t v e s = write_int t z e s.
Proof. intros t v z e s [->|[->|[[-> ->]|[-> ->]]]]; destruct t; reflexivity. Qed.
Print Assumptions C92_int_like.
Theorem C92_other_refused : forall t v e, (forall z, ~ stands_for v z) -> refuses (write_any t v e) StructError.
Proof.
  intros t v e H s. assert (N : as_int v = None).
  { unfold stands_for in H. destruct v; try reflexivity; exfalso; [eapply H; left; reflexivity| |eapply H; right; left; reflexivity].
    destruct b; [eapply (H 1); right; right; right; split; reflexivity|eapply (H 0); right; right; left; split; reflexivity]. }
  destruct t; cbn [write_any]; unfold WriteInt8_any, WriteUInt8_any, WriteInt16_any, WriteUInt16_any, WriteInt32_any, WriteUInt32_any, WriteInt64_any, WriteUInt64_any, pack_any; rewrite N; reflexivity.
Qed.
Print Assumptions C92_other_refused.
Example C92_example : stands_for (VBool true) 1 /\ (forall z, ~ stands_for (VStr (str "5")) z) /\
  WriteUInt16_any (VBool true) LE (at_end []) = (Ok 2, at_end [x01; x00]) /\ WriteUInt16_any (VStr (str "5")) LE (at_end []) = (Raise StructError, at_end []) /\
  WriteInt32_any (VBig (-2)) BE (at_end []) = (Ok 4, at_end [xff; xff; xff; xfe]).
Proof.
  split; [right; right; right; split; reflexivity|]. split; [intros z [H|[H|[[H _]|[H _]]]]; discriminate H|]. repeat split; vm_compute; reflexivity.
Qed.
