(** * P_EC: C60, C61, C62, C65, C67, C76 (points of secp256r1: encoding, decoding, addition) *)
From Coq Require Import ZArith Znumtheory Lia List Setoid.
From Verif Require Import M_Py M_UInt M_Writer M_Reader M_ECCurve L_Bytes L_IO L_Hex L_Fermat L_Prime L_Field L_EC L_EC2 L_EC3 S_IO S_EC.
Import ListNotations.
Open Scope Z_scope.

(** A point of the curve other than infinity, in canonical coordinates. *)
Definition affine (c : curve) (P : point) : Prop := canonical (c_p c) P /\ equation (c_p c) (c_a c) (c_b c) (fst P) (snd P).
Definition named (c : curve) : Prop := c = secp256r1 \/ c = secp256k1.
Lemma named_good c : named c -> good c.
Proof. intros [-> | ->]; [exact good_r1|exact good_k1]. Qed.
Lemma affine_finite c P : named c -> affine c P -> P <> (0, 0).
Proof. intros [-> | ->] [_ E] ->; cbn [fst snd] in E; [apply r1_y_nonzero in E|apply k1_y_nonzero in E]; congruence. Qed.
Lemma IsInfinity_iff c P : 0 < c_p c -> canonical (c_p c) P -> IsInfinity c P = true <-> P = (0, 0).
Proof.
  intros H C. unfold IsInfinity. rewrite point_eq_iff by exact H. unfold Infinity. cbn [fst snd]. split.
  - intros [X Y]. apply (canon_eq (c_p c)); try assumption. split; cbn; lia.
  - intros ->. cbn [fst snd]. split; reflexivity.
Qed.
Lemma IsInfinity_affine c P : named c -> affine c P -> IsInfinity c P = false.
Proof.
  intros N A. pose proof (good_pos c (named_good c N)). destruct (IsInfinity c P) eqn:E; [|reflexivity]. exfalso.
  apply IsInfinity_iff in E; [|lia|apply A]. exact (affine_finite c P N A E).
Qed.
Lemma canonical_256 c x y : named c -> canonical (c_p c) (x, y) -> 0 <= x < 2 ^ 256 /\ 0 <= y < 2 ^ 256.
Proof. intros N [X Y]. destruct (named_good c N) as (_ & _ & _ & B). cbn [fst snd] in *. lia. Qed.

(** ** C60 *)
Theorem C60_compressed_form : forall c x y, named c -> affine c (x, y) ->
  exists enc, compressed_key x y enc /\ encode_point c (x, y) true LE = Ok (hexlify enc).
Proof.
  intros c x y N A. unfold encode_point. rewrite (IsInfinity_affine c _ N A). destruct (canonical_256 c x y N (proj1 A)) as [X Y].
  destruct (be32_bytes x X) as [E B]. cbn [fst snd]. rewrite E. cbn [rbind]. eexists. split; [|reflexivity].
  exists (rev (z2le 32 x)). split; [exact B|]. rewrite Zmod_even. destruct (Z.even y); reflexivity.
Qed.
Print Assumptions C60_compressed_form.
Theorem C60_uncompressed_form : forall c x y, named c -> affine c (x, y) ->
  exists enc, uncompressed_key x y enc /\ encode_point c (x, y) false LE = Ok (hexlify enc).
Proof.
  intros c x y N A. unfold encode_point. rewrite (IsInfinity_affine c _ N A). destruct (canonical_256 c x y N (proj1 A)) as [X Y].
  destruct (be32_bytes x X) as [E B]. destruct (be32_bytes y Y) as [E' B']. cbn [fst snd]. rewrite E. cbn [rbind]. rewrite E'. cbn [rbind].
  eexists. split; [|reflexivity]. exists (rev (z2le 32 x)), (rev (z2le 32 y)). split; [exact B|]. split; [exact B'|]. reflexivity.
Qed.
Print Assumptions C60_uncompressed_form.
(** every way of handing over the SEC1 bytes decodes to the point *)
Theorem C60_decode_compressed : forall c x y enc v unhex, named c -> affine c (x, y) -> compressed_key x y enc -> carries v unhex enc ->
  decode_from_hex c v unhex = Ok (x, y).
Proof.
  intros c x y enc v unhex N A (xb & [L V] & ->) K. rewrite (carries_decode c v unhex _ K). pose proof (named_good c N) as G.
  rewrite decode_compressed; [|exact G|destruct (Z.even y); tauto]. replace (zlen xb =? 32) with true by (unfold zlen; rewrite L; reflexivity). rewrite V.
  destruct A as [C E]. apply decompress_point; try assumption.
  - destruct (Z.even y); [left|right]; reflexivity.
  - rewrite <- Z.negb_even. destruct (Z.even y); reflexivity.
Qed.
Print Assumptions C60_decode_compressed.
Theorem C60_decode_uncompressed : forall c x y enc v unhex, named c -> uncompressed_key x y enc -> carries v unhex enc ->
  decode_from_hex c v unhex = Ok (x, y).
Proof.
  intros c x y enc v unhex N (xb & yb & [L V] & [L' V'] & ->) K. rewrite (carries_decode c v unhex _ K).
  rewrite decode_uncompressed by apply (named_good c N). rewrite zlen_app. unfold zlen. rewrite L, L'. cbn -[num_be firstn skipn].
  rewrite <- L. rewrite firstn_app_exact, skipn_app_exact, V, V'. reflexivity.
Qed.
Print Assumptions C60_decode_uncompressed.
(** encode_point followed by decode_from_hex *)
Theorem C60_roundtrip : forall c P compressed, named c -> affine c P ->
  exists t, encode_point c P compressed LE = Ok t /\ decode_from_hex c (VBytes t) true = Ok P /\ decode_from_hex c (VStr (map b2z t)) true = Ok P.
Proof.
  intros c [x y] b N A. assert (H : forall enc, hex_denotes (map b2z (hexlify enc)) enc).
  { intros enc. unfold hexlify. rewrite hex_codes_byte. apply hex_denotes_hex. }
  destruct b.
  - destruct (C60_compressed_form c x y N A) as (enc & K & E). exists (hexlify enc). split; [exact E|]. split; apply (C60_decode_compressed c x y enc); try assumption; constructor; apply H.
  - destruct (C60_uncompressed_form c x y N A) as (enc & K & E). exists (hexlify enc). split; [exact E|]. split; apply (C60_decode_uncompressed c x y enc); try assumption; constructor; apply H.
Qed.
Print Assumptions C60_roundtrip.
Lemma ReadByte_reads b : reads ReadByte [b] (b2z b).
Proof.
  intros s rest H. unfold ReadByte, itry, ibind. rewrite (bio_read_exact_n 1 [b]) with (rest := rest); [reflexivity|reflexivity|vm_compute; discriminate|exact H].
Qed.
(** on a stream: Serialize writes the raw SEC1 bytes and Deserialize_Secp256r1 reads them back *)
Theorem C60_stream : forall x y, affine secp256r1 (x, y) ->
  exists enc, compressed_key x y enc /\ writes (pt_Serialize secp256r1 (x, y) true) tt enc /\ reads Deserialize_Secp256r1 enc (x, y).
Proof.
  intros x y A. assert (N : named secp256r1) by (left; reflexivity). destruct (C60_compressed_form _ x y N A) as (enc & K & E). exists enc. split; [exact K|]. split.
  - unfold pt_Serialize. rewrite (IsInfinity_affine _ _ N A). eapply writes_lift; [exact E|]. eapply writes_seq_ret. apply WriteBytes_hex. unfold hexlify. rewrite hex_codes_byte. apply hex_denotes_hex.
  - destruct K as (xb & [L V] & ->). unfold Deserialize_Secp256r1, decode_from_reader.
    set (f := if Z.even y then x02 else x03). change (f :: xb) with ([f] ++ xb). eapply reads_bind; [apply ReadByte_reads|].
    assert (F : f = x02 \/ f = x03) by (unfold f; destruct (Z.even y); tauto).
    replace (b2z f =? 0) with false by (destruct F as [-> | ->]; reflexivity). replace ((b2z f =? 2) || (b2z f =? 3))%bool with true by (destruct F as [-> | ->]; reflexivity).
    eapply reads_lift; [apply (bio_read_exact_n 32 xb); [unfold zlen; rewrite L; reflexivity|vm_compute; discriminate]|].
    rewrite coord_num, V. destruct A as [C Eq]. apply decompress_point; try assumption; [exact good_r1| |].
    + destruct F as [-> | ->]; [left|right]; reflexivity.
    + unfold f. rewrite <- Z.negb_even. destruct (Z.even y); reflexivity.
Qed.
Print Assumptions C60_stream.
Theorem C60_infinity : writes (pt_Serialize secp256r1 (0, 0) true) tt [x00] /\ reads Deserialize_Secp256r1 [x00] (0, 0) /\
  (forall c b e, 1 < c_p c -> encode_point c (0, 0) b e = Ok [x00]) /\
  decode_from_hex secp256r1 (VBytearray [x00]) false = Ok (0, 0) /\ decode_from_hex secp256r1 (VBytearray [x00]) true = Raise BinasciiError.
Proof.
  split; [|split; [|split; [|split]]].
  - unfold pt_Serialize. intros pre. change (IsInfinity secp256r1 (0, 0)) with true. cbv iota. unfold WriteByte, ibind. rewrite bio_write_end. reflexivity.
  - unfold Deserialize_Secp256r1, decode_from_reader. change [x00] with ([x00] ++ []). eapply reads_bind; [apply ReadByte_reads|]. apply reads_ret.
  - intros c b e H. unfold encode_point. assert (IsInfinity c (0, 0) = true) as ->; [|reflexivity]. unfold IsInfinity. apply point_eq_iff; [lia|]. split; reflexivity.
  - vm_compute. reflexivity.
  - vm_compute. reflexivity.
Qed.
Print Assumptions C60_infinity.
(** Size is the length of the compressed serialization *)
Theorem C60_size : forall P, P = (0, 0) \/ affine secp256r1 P -> exists enc, writes (pt_Serialize secp256r1 P true) tt enc /\ pt_Size secp256r1 P = Z.of_nat (length enc).
Proof.
  intros P [->|A]; [exists [x00]; split; [apply C60_infinity|reflexivity]|]. destruct P as [x y]. destruct (C60_stream x y A) as (enc & (xb & [L _] & ->) & W & _).
  exists ((if Z.even y then x02 else x03) :: xb). split; [exact W|]. unfold pt_Size. rewrite (IsInfinity_affine secp256r1 _ (or_introl eq_refl) A). cbn [length]. rewrite L. reflexivity.
Qed.
Print Assumptions C60_size.
(** what Serialize(compress=False) writes cannot be read back *)
Theorem C60_uncompressed_stream : forall x y s rest, affine secp256r1 (x, y) -> forall enc, uncompressed_key x y enc ->
  writes (pt_Serialize secp256r1 (x, y) false) tt enc /\
  (remaining s = enc ++ rest -> fst (Deserialize_Secp256r1 s) = Raise NotImplementedError).
Proof.
  intros x y s rest A enc K. assert (N : named secp256r1) by (left; reflexivity). split.
  - destruct (C60_uncompressed_form _ x y N A) as (enc' & K' & E).
    assert (enc' = enc) as ->. { destruct K as (xb & yb & X & Y & ->), K' as (xb' & yb' & X' & Y' & ->). rewrite (be32_inj _ _ _ X X'), (be32_inj _ _ _ Y Y'). reflexivity. }
    unfold pt_Serialize. rewrite (IsInfinity_affine _ _ N A). eapply writes_lift; [exact E|]. eapply writes_seq_ret. apply WriteBytes_hex. unfold hexlify. rewrite hex_codes_byte. apply hex_denotes_hex.
  - destruct K as (xb & yb & _ & _ & ->). intros H. unfold Deserialize_Secp256r1, decode_from_reader, ibind.
    rewrite (ReadByte_reads x04 s ((xb ++ yb) ++ rest)); [reflexivity|exact H].
Qed.
Print Assumptions C60_uncompressed_stream.
Example C60_example : affine secp256r1 G256 /\ affine secp256k1 G256k1.
Proof.
  split; (split; [split; cbn; split; (discriminate || reflexivity)|]); apply feq_cong; try reflexivity; vm_compute; reflexivity.
Qed.

(** ** C61 *)
Theorem C61_compressed : forall c f xb v unhex, named c -> f = x02 \/ f = x03 -> length xb = 32%nat -> carries v unhex (f :: xb) ->
  let x := num_be xb in
  (square (c_p c) (x * x * x + c_a c * x + c_b c) ->
     exists y, decode_from_hex c v unhex = Ok (x, y) /\ 0 < y < c_p c /\ equation (c_p c) (c_a c) (c_b c) x y /\ (Z.odd y = true <-> f = x03)) /\
  (~ square (c_p c) (x * x * x + c_a c * x + c_b c) -> decode_from_hex c v unhex = Raise TypeError).
Proof.
  intros c f xb v unhex N F L K x. pose proof (named_good c N) as G. rewrite (carries_decode c v unhex _ K). rewrite decode_compressed by assumption.
  replace (zlen xb =? 32) with true by (unfold zlen; rewrite L; reflexivity). fold x. split.
  - intros S. destruct (decompress_square c x (b2z f - 2) G) as (y & D & R & E & P); [destruct F as [-> | ->]; [left|right]; reflexivity|exact S|].
    assert (y <> 0) by (destruct N as [-> | ->]; [exact (r1_y_nonzero x y E)|exact (k1_y_nonzero x y E)]).
    exists y. split; [exact D|]. split; [lia|]. split; [exact E|]. destruct P as [|P]; [tauto|]. rewrite P. destruct F as [-> | ->]; cbn; split; congruence.
  - apply decompress_nonsquare, G.
Qed.
Print Assumptions C61_compressed.
Theorem C61_other_bytes : forall c f rest v unhex, named c -> carries v unhex (f :: rest) ->
  (f = x00 -> decode_from_hex c v unhex = Ok (0, 0)) /\
  (f = x02 \/ f = x03 -> length rest <> 32%nat -> decode_from_hex c v unhex = Raise PlainException) /\
  (f = x04 -> length rest <> 64%nat -> decode_from_hex c v unhex = Raise PlainException) /\
  (f = x06 \/ f = x07 -> decode_from_hex c v unhex = Raise NotImplementedError) /\
  (~ In f [x00; x02; x03; x04; x06; x07] -> decode_from_hex c v unhex = Raise PlainException).
Proof.
  intros c f rest v unhex N K. pose proof (named_good c N) as G. rewrite (carries_decode c v unhex _ K).
  split; [|split; [|split; [|split]]].
  - intros ->. unfold decode_ba. rewrite (good_len c G). reflexivity.
  - intros F L. rewrite decode_compressed by assumption. replace (zlen rest =? 32) with false by (unfold zlen; lia). reflexivity.
  - intros -> L. rewrite decode_uncompressed by assumption. replace (zlen rest =? 64) with false by (unfold zlen; lia). reflexivity.
  - intros F. unfold decode_ba. rewrite (good_len c G). destruct F as [-> | ->]; reflexivity.
  - intros F. unfold decode_ba. rewrite (good_len c G). cbn [rbind].
    assert (X : forall n, In n [x00; x02; x03; x04; x06; x07] -> (b2z f =? b2z n) = false).
    { intros n I. apply Z.eqb_neq. intros E. apply b2z_inj in E. subst. tauto. }
    pose proof (X x00 ltac:(cbn; tauto)) as X0. pose proof (X x02 ltac:(cbn; tauto)) as X2. pose proof (X x03 ltac:(cbn; tauto)) as X3.
    pose proof (X x04 ltac:(cbn; tauto)) as X4. pose proof (X x06 ltac:(cbn; tauto)) as X6. pose proof (X x07 ltac:(cbn; tauto)) as X7.
    change (b2z x00) with 0 in X0. change (b2z x02) with 2 in X2. change (b2z x03) with 3 in X3. change (b2z x04) with 4 in X4. change (b2z x06) with 6 in X6. change (b2z x07) with 7 in X7.
    rewrite X0, X2, X3, X4, X6, X7. reflexivity.
Qed.
Print Assumptions C61_other_bytes.
(** nothing at all is an IndexError; text that is not unhexlified first is never decoded *)
Theorem C61_empty : forall c v unhex, named c -> carries v unhex [] -> decode_from_hex c v unhex = Raise IndexError.
Proof. intros c v unhex N K. rewrite (carries_decode c v unhex _ K). pose proof (named_good c N) as G. unfold decode_ba. rewrite (good_len c G). reflexivity. Qed.
Print Assumptions C61_empty.
Theorem C61_text_not_unhexlified : forall c t, decode_from_hex c (VStr []) false = Raise IndexError /\
  (t <> [] -> decode_from_hex c (VStr t) false = Raise PlainException).
Proof. intros c t. split; [reflexivity|]. destruct t; [congruence|reflexivity]. Qed.
Print Assumptions C61_text_not_unhexlified.
(** ToString and ToBytes give the hexadecimal digits of the hexadecimal digits: 132 characters, which
    decode_from_hex refuses and which give the SEC1 bytes only after two unhexlify *)
Theorem C60_text : forall c x y, named c -> affine c (x, y) ->
  exists enc t, compressed_key x y enc /\ pt_ToString c (x, y) = Ok t /\ length t = 132%nat /\
    (exists once, hex_denotes t once /\ hex_denotes (map b2z once) enc) /\
    decode_from_hex c (VStr t) true = Raise PlainException.
Proof.
  intros c x y N A. destruct (C60_compressed_form c x y N A) as (enc & K & E). exists enc, (hex (hexlify enc)).
  split; [exact K|]. split; [unfold pt_ToString; rewrite E; reflexivity|].
  assert (H : hex_denotes (hex (hexlify enc)) (hexlify enc)) by apply hex_denotes_hex. split; [|split].
  - destruct K as (xb & [L _] & ->). rewrite hex_length. unfold hexlify. rewrite map_length, hex_length. cbn [length]. rewrite L. reflexivity.
  - exists (hexlify enc). split; [exact H|]. unfold hexlify. rewrite hex_codes_byte. apply hex_denotes_hex.
  - destruct K as (xb & _ & ->). set (f := if Z.even y then x02 else x03) in *.
    assert (exists rest, hexlify (f :: xb) = x30 :: rest) as (rest & Er) by (unfold f; destruct (Z.even y); eexists; reflexivity).
    rewrite Er in *. apply (proj2 (proj2 (proj2 (proj2 (C61_other_bytes c x30 rest _ _ N (carries_text _ _ H)))))).
    cbn [In]. intuition discriminate.
Qed.
Print Assumptions C60_text.
Theorem C60_text_infinity : forall c, named c -> pt_ToString c (0, 0) = Ok [48; 48] /\ decode_from_hex c (VStr [48; 48]) true = Ok (0, 0).
Proof. intros c [-> | ->]; split; vm_compute; reflexivity. Qed.
Print Assumptions C60_text_infinity.
(** x and x + p are accepted as two different encodings of one and the same point, also with
    the curve check, whenever both fit in 32 bytes *)
Theorem C61_two_encodings : forall f x xb xb', f = x02 \/ f = x03 -> 0 <= x -> be32 x xb -> be32 (x + c_p secp256r1) xb' ->
  square (c_p secp256r1) (x * x * x + c_a secp256r1 * x + c_b secp256r1) ->
  exists y, decode_secp256r1 (VBytes (f :: xb)) false true = Ok (x, y) /\ decode_secp256r1 (VBytes (f :: xb')) false true = Ok (x + c_p secp256r1, y) /\
  point_eq secp256r1 (x, y) (x + c_p secp256r1, y) = true.
Proof.
  intros f x xb xb' F X V V' S. destruct (two_encodings _ f x xb xb' good_r1 F V V' S) as (y & A & B & C & D & E).
  exists y. unfold decode_secp256r1. rewrite A, B. cbn [rbind]. rewrite C, D. split; [reflexivity|]. split; [reflexivity|exact E].
Qed.
Print Assumptions C61_two_encodings.
Example C61_example : be32 5 (rev (z2le 32 5)) /\ be32 (5 + c_p secp256r1) (rev (z2le 32 (5 + p256))) /\ square (c_p secp256r1) (5 * 5 * 5 + c_a secp256r1 * 5 + c_b secp256r1).
Proof.
  split; [split; reflexivity|]. split; [split; reflexivity|]. exists 31468013646237722594854082025316614106172411895747863909393730389177298123724.
  apply divide_mod_eq; [reflexivity|]. vm_compute. reflexivity.
Qed.

(** ** C62 *)
Theorem C62_checked : forall s unhex P, decode_secp256r1 s unhex true = Ok P ->
  P = (0, 0) \/ equation (c_p secp256r1) (c_a secp256r1) (c_b secp256r1) (fst P) (snd P).
Proof.
  intros s unhex P H. unfold decode_secp256r1 in H. destruct (decode_from_hex secp256r1 s unhex) as [Q|]; [|discriminate]. cbn [rbind] in H.
  destruct (isoncurve secp256r1 Q) eqn:E; [|discriminate]. assert (Q = P) as -> by congruence. apply isoncurve_iff; [reflexivity|exact E].
Qed.
Print Assumptions C62_checked.
(** and every encoding of a point of the curve passes the check *)
Theorem C62_check_passes : forall x y enc v unhex, affine secp256r1 (x, y) -> compressed_key x y enc \/ uncompressed_key x y enc -> carries v unhex enc ->
  decode_secp256r1 v unhex true = Ok (x, y).
Proof.
  intros x y enc v unhex A K C. assert (N : named secp256r1) by (left; reflexivity). unfold decode_secp256r1.
  assert (D : decode_from_hex secp256r1 v unhex = Ok (x, y)) by (destruct K as [K|K]; [eapply C60_decode_compressed|eapply C60_decode_uncompressed]; eassumption).
  rewrite D. cbn [rbind]. rewrite (proj2 (isoncurve_iff secp256r1 (x, y) eq_refl)); [reflexivity|]. right. apply A.
Qed.
Print Assumptions C62_check_passes.
(** without the check any pair of 256-bit numbers is accepted *)
Theorem C62_unchecked : forall x y, 0 <= x < 2 ^ 256 -> 0 <= y < 2 ^ 256 -> exists enc, uncompressed_key x y enc /\
  forall v unhex, carries v unhex enc -> decode_secp256r1 v unhex false = Ok (x, y) /\
    (~ equation (c_p secp256r1) (c_a secp256r1) (c_b secp256r1) x y -> (x, y) <> (0, 0) -> decode_secp256r1 v unhex true = Raise PlainException).
Proof.
  intros x y X Y. destruct (be32_bytes x X) as [_ B]. destruct (be32_bytes y Y) as [_ B']. eexists. split; [exists (rev (z2le 32 x)), (rev (z2le 32 y)); split; [exact B|]; split; [exact B'|reflexivity]|].
  intros v unhex K. unfold decode_secp256r1. rewrite (C60_decode_uncompressed secp256r1 x y (x04 :: rev (z2le 32 x) ++ rev (z2le 32 y)) v unhex); [|left; reflexivity|eexists; eexists; eauto|exact K].
  cbn [rbind]. split; [reflexivity|]. intros NE NZ. destruct (isoncurve secp256r1 (x, y)) eqn:E; [|reflexivity]. exfalso. apply isoncurve_iff in E; [|reflexivity]. cbn [fst snd] in E. tauto.
Qed.
Print Assumptions C62_unchecked.
(** FromBytes_Secp256r1: 96 or 104 raw bytes give the 64 bytes before the last 32, whatever
    they are; 33, 64, 65 and 72 raw bytes always raise; other lengths give None *)
Theorem C62_FromBytes_blob : forall skip xb yb rest, (length skip = 0%nat \/ length skip = 8%nat) -> length xb = 32%nat -> length yb = 32%nat -> length rest = 32%nat ->
  FromBytes_Secp256r1 (VBytes (skip ++ xb ++ yb ++ rest)) = Ok (Some (num_be xb, num_be yb)).
Proof.
  intros sk xb yb rest S X Y R. unfold FromBytes_Secp256r1, py_len. cbn [rbind]. rewrite !zlen_app. unfold zlen. rewrite X, Y, R.
  assert (G : forall n, n = length sk -> rmap Some (decode_secp256r1 (VBytearray (x04 :: slice n (n + 64) (sk ++ xb ++ yb ++ rest))) false false) = Ok (Some (num_be xb, num_be yb))).
  { intros n ->. unfold slice. rewrite skipn_app_exact. replace (length sk + 64 - length sk)%nat with (length (xb ++ yb)) by (rewrite app_length; lia).
    rewrite (app_assoc xb). rewrite firstn_app_exact. unfold decode_secp256r1. cbn [decode_from_hex]. rewrite decode_uncompressed by exact good_r1.
    rewrite zlen_app. unfold zlen. rewrite X, Y. cbn -[num_be firstn skipn]. rewrite <- X. rewrite firstn_app_exact, skipn_app_exact. reflexivity. }
  destruct S as [S|S]; rewrite S in *; cbn -[decode_secp256r1 slice app]; apply G; reflexivity.
Qed.
Print Assumptions C62_FromBytes_blob.
Theorem C62_FromBytes_raises : forall b, In (length b) [33; 64; 65; 72]%nat -> exists e, FromBytes_Secp256r1 (VBytes b) = Raise e.
Proof.
  intros b L. unfold FromBytes_Secp256r1, py_len. cbn [rbind]. unfold zlen.
  assert (O : Nat.odd (length b) = true -> exists e, rmap Some (decode_secp256r1 (VBytes b) true true) = Raise e).
  { intros Od. exists BinasciiError. unfold decode_secp256r1, decode_from_hex, unhexlify. destruct (unhex_codes (map b2z b)) as [d|] eqn:U; [|reflexivity].
    apply unhex_codes_len in U. rewrite map_length in U. rewrite U in Od. rewrite Nat.odd_mul in Od. discriminate. }
  cbn [In] in L. destruct L as [L|[L|[L|[L|[]]]]]; rewrite <- L in *; cbn -[decode_secp256r1]; eauto.
Qed.
Print Assumptions C62_FromBytes_raises.
Theorem C62_FromBytes_other : forall b, ~ In (length b) [33; 64; 65; 72; 96; 104]%nat -> FromBytes_Secp256r1 (VBytes b) = Ok None.
Proof.
  intros b L. unfold FromBytes_Secp256r1, py_len. cbn [rbind]. unfold zlen. cbn [In] in L.
  replace ((Z.of_nat (length b) =? 33) || (Z.of_nat (length b) =? 65))%bool with false by lia.
  replace ((Z.of_nat (length b) =? 64) || (Z.of_nat (length b) =? 72))%bool with false by lia.
  replace ((Z.of_nat (length b) =? 96) || (Z.of_nat (length b) =? 104))%bool with false by lia. reflexivity.
Qed.
Print Assumptions C62_FromBytes_other.

(** No text is ever decoded, hexadecimal or not: for these six lengths it raises, for all others (the 66 and 130
    hexadecimal digits of a key, for instance) the result is None. *)
Theorem C62_FromBytes_text : forall t, (In (length t) [33; 64; 65; 72; 96; 104]%nat -> exists e, FromBytes_Secp256r1 (VStr t) = Raise e) /\
  (~ In (length t) [33; 64; 65; 72; 96; 104]%nat -> FromBytes_Secp256r1 (VStr t) = Ok None).
Proof.
  intros t. unfold FromBytes_Secp256r1, py_len. cbn [rbind]. unfold zlen. split; intros L.
  - assert (O : Nat.odd (length t) = true -> exists e, rmap Some (decode_secp256r1 (VStr t) true true) = Raise e).
    { intros Od. unfold decode_secp256r1, decode_from_hex, unhexlify. destruct (forallb _ t); [|eexists; reflexivity]. exists BinasciiError. destruct (unhex_codes t) as [d|] eqn:U; [|reflexivity].
      apply unhex_codes_len in U. rewrite U in Od. rewrite Nat.odd_mul in Od. discriminate. }
    assert (T : forall r, exists e, rmap Some (decode_secp256r1 (VStr ([51; 48; 51; 52] ++ r)) true true) = Raise e).
    { intros r. unfold decode_secp256r1, decode_from_hex, unhexlify. destruct (forallb _ _); [|eexists; reflexivity].
      cbn [app unhex_codes]. destruct (unhex_codes r) as [d|]; eexists; reflexivity. }
    cbn [In] in L. destruct L as [L|[L|[L|[L|[L|[L|[]]]]]]]; rewrite <- L in *.
    + apply O. reflexivity.
    + apply T.
    + apply O. reflexivity.
    + apply T.
    + eexists. reflexivity.
    + eexists. reflexivity.
  - cbn [In] in L.
    replace ((Z.of_nat (length t) =? 33) || (Z.of_nat (length t) =? 65))%bool with false by lia.
    replace ((Z.of_nat (length t) =? 64) || (Z.of_nat (length t) =? 72))%bool with false by lia.
    replace ((Z.of_nat (length t) =? 96) || (Z.of_nat (length t) =? 104))%bool with false by lia. reflexivity.
Qed.
Print Assumptions C62_FromBytes_text.
(** a bytearray counts as bytes; None and numbers raise TypeError *)
Theorem C62_FromBytes_other_types : (forall b, FromBytes_Secp256r1 (VBytearray b) = FromBytes_Secp256r1 (VBytes b)) /\
  (forall v, (forall t, v <> VStr t) -> (forall b, v <> VBytes b /\ v <> VBytearray b) -> FromBytes_Secp256r1 v = Raise TypeError).
Proof.
  split.
  - intros b. unfold FromBytes_Secp256r1. cbn [py_len rbind]. destruct ((zlen b =? 33) || _)%bool; [reflexivity|]. destruct ((zlen b =? 64) || _)%bool; [reflexivity|]. reflexivity.
  - intros v T B. destruct v as [b|b|s|z|b|z| |]; try reflexivity; [destruct (B b); congruence|destruct (B b); congruence|destruct (T s eq_refl)].
Qed.
Print Assumptions C62_FromBytes_other_types.

(** ** C76 Deserialize_Secp256r1 does not notice a truncated stream *)
Theorem C76_end_of_stream : forall s, remaining s = [] -> Deserialize_Secp256r1 s = (Ok (0, 0), s).
Proof.
  intros s H. unfold Deserialize_Secp256r1, decode_from_reader, ReadByte, itry, ibind. rewrite bio_read_spec by (vm_compute; split; discriminate). rewrite H. cbn. rewrite advance_0. reflexivity.
Qed.
Print Assumptions C76_end_of_stream.
(** fewer than 32 bytes after the prefix are taken as a shorter number *)
Theorem C76_truncated : forall s f xb, (f = x02 \/ f = x03) -> remaining s = f :: xb -> (length xb < 32)%nat ->
  let x := num_be xb in
  (square (c_p secp256r1) (x * x * x + c_a secp256r1 * x + c_b secp256r1) ->
     exists y, fst (Deserialize_Secp256r1 s) = Ok (x, y) /\ equation (c_p secp256r1) (c_a secp256r1) (c_b secp256r1) x y) /\
  (~ square (c_p secp256r1) (x * x * x + c_a secp256r1 * x + c_b secp256r1) -> fst (Deserialize_Secp256r1 s) = Raise TypeError).
Proof.
  intros s f xb F H L x. unfold Deserialize_Secp256r1, decode_from_reader, ibind. rewrite (ReadByte_reads f s xb H). cbn [length].
  assert (R : remaining (advance 1 s) = xb) by (rewrite remaining_advance, H; reflexivity).
  replace (b2z f =? 0) with false by (destruct F as [-> | ->]; reflexivity). replace ((b2z f =? 2) || (b2z f =? 3))%bool with true by (destruct F as [-> | ->]; reflexivity).
  unfold ReadBytes. rewrite bio_read_spec by (vm_compute; split; discriminate). rewrite R. rewrite firstn_all2 by lia. rewrite coord_num. fold x. unfold ilift. cbn [fst]. split.
  - intros S. destruct (decompress_square secp256r1 x (Z.land (b2z f) 1) good_r1) as (y & D & _ & E & _); [destruct F as [-> | ->]; [left|right]; reflexivity|exact S|]. exists y. split; assumption.
  - apply decompress_nonsquare, good_r1.
Qed.
Print Assumptions C76_truncated.
Example C76_example : exists y, fst (Deserialize_Secp256r1 (mkStream [x02; x05] 0)) = Ok (5, y) /\ equation (c_p secp256r1) (c_a secp256r1) (c_b secp256r1) 5 y.
Proof.
  apply (proj1 (C76_truncated (mkStream [x02; x05] 0) x02 [x05] (or_introl eq_refl) eq_refl ltac:(cbn; repeat constructor))). apply C61_example.
Qed.

(** ** C65 *)
Theorem C65_closed : forall c P Q, prime (c_p c) -> 2 < c_p c -> is_point (c_p c) (c_a c) (c_b c) P -> is_point (c_p c) (c_a c) (c_b c) Q ->
  sum (c_p c) (c_a c) P Q (ec_add c P Q) /\ is_point (c_p c) (c_a c) (c_b c) (ec_add c P Q) /\ isoncurve c (ec_add c P Q) = true.
Proof.
  intros c P Q Hp H2 HP HQ. pose proof (ec_add_sum c P Q Hp H2 HP HQ) as S. pose proof (sum_point _ _ _ _ _ _ Hp H2 HP HQ S) as R.
  split; [exact S|]. split; [exact R|]. apply isoncurve_iff; [lia|]. apply R.
Qed.
Print Assumptions C65_closed.
(** the chord-and-tangent sum is unique, so ec_add is the sum *)
Theorem C65_unique : forall c P Q R, prime (c_p c) -> 2 < c_p c -> is_point (c_p c) (c_a c) (c_b c) P -> is_point (c_p c) (c_a c) (c_b c) Q ->
  sum (c_p c) (c_a c) P Q R -> R = ec_add c P Q.
Proof.
  intros c P Q R Hp H2 HP HQ S. apply (sum_fun (c_p c) (c_a c) P Q); try assumption; [apply HP|apply HQ|]. apply ec_add_sum; assumption.
Qed.
Print Assumptions C65_unique.
Theorem C65_commutative : forall c P Q, prime (c_p c) -> 2 < c_p c -> is_point (c_p c) (c_a c) (c_b c) P -> is_point (c_p c) (c_a c) (c_b c) Q ->
  ec_add c P Q = ec_add c Q P.
Proof.
  intros c P Q Hp H2 HP HQ. apply C65_unique; try assumption. apply sum_comm; [exact Hp|]. apply ec_add_sum; assumption.
Qed.
Print Assumptions C65_commutative.
Theorem C65_neutral : forall c P, ec_add c (0, 0) P = P /\ ec_add c P (0, 0) = P.
Proof. intros c [x y]. split; [reflexivity|]. unfold ec_add. destruct (iszero (x, y)) eqn:E; [apply iszero_iff in E; rewrite E|]; reflexivity. Qed.
Print Assumptions C65_neutral.
Theorem C65_opposite : forall c P, prime (c_p c) -> 2 < c_p c -> canonical (c_p c) P -> P <> (0, 0) ->
  ec_add c P (ec_neg c P) = (0, 0) /\ ec_sub c P P = (0, 0).
Proof.
  intros c [x y] Hp H2 [CX CY] N. unfold ec_sub. assert (E : ec_add c (x, y) (ec_neg c (x, y)) = (0, 0)); [|split; exact E].
  cbn [fst snd] in *. unfold ec_add, ec_neg. cbn [fst snd]. rewrite (proj2 (iszero_false (x, y)) N).
  assert (iszero (x, fneg_ (c_p c) y) = false) as ->. { apply iszero_false. unfold fneg_. intros E. inversion E. lia. }
  destruct (point_eq c (x, y) (x, fneg_ (c_p c) y)) eqn:PE.
  - apply point_eq_iff in PE; [|lia]. cbn [fst snd] in PE. destruct PE as [_ Y]. rewrite fneg_cong in Y.
    assert (feq (c_p c) y 0 = true) as ->; [|reflexivity]. apply feq_cong; [lia|]. apply (both_signs (c_p c) y y Hp H2); [reflexivity|exact Y].
  - rewrite feq_refl by lia. reflexivity.
Qed.
Print Assumptions C65_opposite.
(** negation maps points to points of the curve (as residues), but the negative of infinity
    is (0, p), which is no longer taken for infinity when added or subtracted *)
Theorem C65_negation : forall c P, 0 < c_p c -> equation (c_p c) (c_a c) (c_b c) (fst P) (snd P) -> isoncurve c (ec_neg c P) = true.
Proof.
  intros c P H E. apply isoncurve_iff; [exact H|]. right. unfold equation, ec_neg in *. cbn [fst snd]. rewrite same_cong in *. rewrite fneg_cong, <- E. apply cong_eq. ring.
Qed.
Print Assumptions C65_negation.
Theorem C65_minus_infinity : (forall c, 1 < c_p c -> ec_neg c (0, 0) = (0, c_p c) /\ iszero (ec_neg c (0, 0)) = false /\ IsInfinity c (ec_neg c (0, 0)) = true) /\
  is_point (c_p secp256r1) (c_a secp256r1) (c_b secp256r1) G256 /\ isoncurve secp256r1 (ec_sub secp256r1 G256 (0, 0)) = false.
Proof.
  split; [|split].
  - intros c H. unfold ec_neg, fneg_, iszero, IsInfinity. cbn [fst snd]. rewrite Z.sub_0_r. split; [reflexivity|]. split; [cbn; lia|].
    apply point_eq_iff; [lia|]. cbn [fst snd Infinity]. split; [reflexivity|apply cong_p_0].
  - destruct C60_example as [[C E] _]. split; [exact C|right; exact E].
  - vm_compute. reflexivity.
Qed.
Print Assumptions C65_minus_infinity.
(** so P - infinity is wrong for every point P other than infinity, on every curve with b other than 0: it
    is infinity, minus P, or not on the curve, but never P *)
Theorem C65_minus_infinity_wrong : forall c P, prime (c_p c) -> 2 < c_p c -> ~ same (c_p c) (c_b c) 0 -> affine c P ->
  let R := ec_sub c P (0, 0) in R <> P /\ (R = (0, 0) \/ ec_add c P R = (0, 0) \/ isoncurve c R = false).
Proof.
  intros c [x y] Hp H2 Hb [[Cx Cy] E]. cbn [fst snd] in *. unfold equation in E. rewrite same_cong in E, Hb. cbv zeta.
  assert (P0 : 0 < c_p c) by lia. assert (NZ : (x, y) <> (0, 0)).
  { intros Z. injection Z as -> ->. apply Hb. rewrite cong_0_iff. replace (c_b c - 0) with (- (0 * 0 - (0 * 0 * 0 + c_a c * 0 + c_b c))) by ring. apply cong_0_iff in E. rewrite E. reflexivity. }
  destruct (C65_minus_infinity) as [MI _]. destruct (MI c ltac:(lia)) as (N1 & N2 & _). unfold ec_sub. rewrite N1 in *.
  remember (ec_add c (x, y) (0, c_p c)) as R eqn:ER. unfold ec_add in ER. rewrite N2 in ER. replace (iszero (x, y)) with false in ER by (symmetry; apply iszero_false, NZ).
  assert (Sm : forall a, 0 <= a < c_p c -> cong (c_p c) a 0 -> a = 0). { intros a A C. apply cong_0 in C. destruct (Z.eq_dec a 0); [assumption|]. apply ndiv_small in C; [tauto|lia]. }
  destruct (Z.eq_dec x 0) as [X|X].
  { subst x. assert (Y : y <> 0) by congruence.
    assert (PE : point_eq c (0, y) (0, c_p c) = false). { apply Bool.not_true_is_false. intros T. apply point_eq_iff in T; [|lia]. cbn [fst snd] in T. destruct T as [_ T]. apply Y, Sm; [lia|]. rewrite T. apply cong_p_0. }
    rewrite PE in ER. cbn [fst snd] in ER. replace (feq (c_p c) 0 0) with true in ER by (symmetry; apply feq_cong; [lia|reflexivity]). subst R. split; [unfold Infinity; intros T; apply Y; congruence|left; reflexivity]. }
  assert (XN : ~ cong (c_p c) x 0) by (intros T; apply X, Sm; [lia|exact T]).
  assert (PE : point_eq c (x, y) (0, c_p c) = false). { apply Bool.not_true_is_false. intros T. apply point_eq_iff in T; [|lia]. cbn [fst snd] in T. tauto. }
  rewrite PE in ER. cbn [fst snd] in ER. replace (feq (c_p c) x 0) with false in ER by (symmetry; apply feq_false; [lia|exact XN]).
  set (l := fdiv (c_p c) (fsub (c_p c) y (c_p c)) (fsub (c_p c) x 0)) in *.
  assert (L : cong (c_p c) (l * x) y).
  { destruct (pos_of_ncong (c_p c) (x - 0) (fsub (c_p c) x 0)) as [A B]; [apply fsub_pos, P0|apply fsub_cong, P0|rewrite Z.sub_0_r; exact XN|].
    replace x with (x - 0) at 1 by ring. rewrite <- (fsub_cong (c_p c) x 0 P0) at 1. unfold l. rewrite (fdiv_mul _ _ _ Hp A B). rewrite fsub_cong by lia.
    rewrite cong_0_iff, cong_0. exists (-1). ring. }
  pose proof (finish_spec (c_p c) l x y 0 P0) as F. unfold slope_finish in F. cbn [fst snd] in F. destruct F as (FC & FX & FY).
  rewrite <- ER in FC. clearbody l. destruct R as [x3 y3].
  assert (E1 : x3 = fsub (c_p c) (fpow (c_p c) l 2) (fadd (c_p c) x 0)) by congruence. rewrite <- E1 in FX, FY.
  assert (E2 : y3 = fsub (c_p c) (fmul (c_p c) l (fsub (c_p c) x x3)) y) by congruence. rewrite <- E2 in FY. clear ER E1 E2. destruct FC as [C3x C3y]. cbn [fst snd] in *.
  set (p := c_p c) in *. set (a := c_a c) in *. set (b := c_b c) in *.
  assert (Y3 : cong p y3 (- l * x3)). { rewrite FY, <- L. apply cong_eq. ring. }
  assert (XX : cong p (l * l) (x3 + x)). { rewrite FX. apply cong_eq. ring. }
  assert (NE : (x3, y3) <> (x, y)).
  { intros T. injection T as -> ->. assert (Y0 : cong p y 0).
    { assert (T : cong p (2 * y) 0). { replace (2 * y) with (y + y) by ring. rewrite Y3 at 1. rewrite <- L. apply cong_eq. ring. }
      apply cong_mul_0 in T; [|exact Hp]. destruct T as [T|T]; [|exact T]. exfalso. rewrite cong_0 in T. apply ndiv_small in T; lia. }
    rewrite Y0 in L. apply cong_mul_0 in L; [|exact Hp]. destruct L as [L|L]; [|tauto]. rewrite L in XX.
    assert (T : cong p (2 * x) 0) by (replace (2 * x) with (x + x) by ring; rewrite <- XX; reflexivity). apply cong_mul_0 in T; [|exact Hp]. destruct T as [T|T]; [|tauto]. rewrite cong_0 in T. apply ndiv_small in T; lia. }
  split; [exact NE|]. destruct (isoncurve c (x3, y3)) eqn:OC; [|auto]. unfold isoncurve in OC. apply Bool.orb_true_iff in OC. destruct OC as [OC|OC]; [left; apply iszero_iff, OC|]. right. left.
  fold p in OC. apply feq_cong in OC; [|exact P0]. cbn [fst snd] in OC. rewrite fpow_cong in OC by lia. unfold curve_rhs in OC. fold p a b in OC.
  rewrite ?fadd_cong, ?fmul_cong, ?fpow_cong in OC by lia. replace (y3 ^ 2) with (y3 * y3) in OC by ring. replace (x3 ^ 3) with (x3 * x3 * x3) in OC by ring.
  assert (A1 : cong p (x * (x3 * x3)) (a * x3 + b)).
  { apply cong_0_iff. apply cong_0_iff in OC. rewrite Y3 in OC. rewrite <- OC at 1.
    transitivity ((x3 + x) * (x3 * x3) - (x3 * x3 * x3 + a * x3 + b)); [apply cong_eq; ring|]. rewrite <- XX. apply cong_eq. ring. }
  assert (A2 : cong p (x3 * (x * x)) (a * x + b)).
  { apply cong_0_iff. apply cong_0_iff in E. rewrite <- L in E. rewrite <- E at 1.
    transitivity ((x3 + x) * (x * x) - (x * x * x + a * x + b)); [apply cong_eq; ring|]. rewrite <- XX. apply cong_eq. ring. }
  assert (A3 : cong p ((x3 - x) * (x * x3 - a)) 0).
  { replace ((x3 - x) * (x * x3 - a)) with (x * (x3 * x3) - x3 * (x * x) - a * x3 + a * x) by ring. rewrite A1, A2. apply cong_eq. ring. }
  apply cong_mul_0 in A3; [|exact Hp]. destruct A3 as [A3|A3].
  - apply cong_0_iff in A3. assert (x3 = x) as -> by (apply (cong_small p); [lia..|exact A3]).
    assert (Yn : cong p y3 (- y)) by (rewrite Y3, <- L; apply cong_eq; ring).
    unfold ec_add. replace (iszero (x, y)) with false by (symmetry; apply iszero_false, NZ). replace (iszero (x, y3)) with false by (symmetry; apply iszero_false; congruence).
    assert (PN : point_eq c (x, y) (x, y3) = false).
    { apply Bool.not_true_is_false. intros T. apply point_eq_iff in T; [|lia]. cbn [fst snd] in T. destruct T as [_ T]. fold p in T. apply NE. f_equal. symmetry. apply (cong_small p); [lia..|exact T]. }
    rewrite PN. cbn [fst snd]. fold p. replace (feq p x x) with true by (symmetry; apply feq_cong; [lia|reflexivity]). reflexivity.
  - exfalso. apply Hb. apply cong_0_iff in A3. transitivity (x3 * (x * x3 - a)).
    + replace b with (a * x3 + b - a * x3) by ring. rewrite <- A1. apply cong_eq. ring.
    + rewrite A3. apply cong_eq. ring.
Qed.
Print Assumptions C65_minus_infinity_wrong.
Theorem C65_minus_infinity_named : forall c P, named c -> affine c P -> ec_sub c P (0, 0) <> P.
Proof.
  intros c P N A. destruct (named_good c N) as (Hp & _). apply (C65_minus_infinity_wrong c P Hp); [destruct N as [-> | ->]; reflexivity| |exact A].
  unfold same. rewrite Z.sub_0_r. apply ndiv_small. destruct N as [-> | ->]; vm_compute; split; reflexivity.
Qed.
Print Assumptions C65_minus_infinity_named.
(** when b = 0 the genuine point (0,0) of the curve is taken for infinity *)
Example C65_example : let c := mkCurve 7 1 3 in (* y^2 = x^3 + x + 3 over F_7 *)
  is_point 7 1 3 (4, 1) /\ is_point 7 1 3 (5, 0) /\ ec_add c (4, 1) (5, 0) = (6, 1) /\ ec_add c (4, 1) (4, 1) = (6, 6) /\ ec_add c (5, 0) (5, 0) = (0, 0).
Proof.
  cbn zeta. split; [split; [split; cbn; lia|right; exists (-10); reflexivity]|]. split; [split; [split; cbn; lia|right; exists (-19); reflexivity]|].
  vm_compute. repeat split; reflexivity.
Qed.

(** ** C67 *)
Theorem C67_order : forall c P Q, pt_lt c P Q = negb (point_eq c Q P) && (fst P <? fst Q) /\ pt_gt c P Q = negb (point_eq c Q P) && (fst Q <? fst P) /\
  pt_le c P Q = point_eq c Q P || (fst P <? fst Q) /\ pt_ge c P Q = point_eq c Q P || (fst Q <? fst P).
Proof.
  intros c P Q. unfold pt_le, pt_ge, pt_lt, pt_gt. destruct (point_eq c Q P); cbn [negb andb orb]; [tauto|].
  destruct (fst P <? fst Q) eqn:A, (fst P >? fst Q) eqn:B, (fst P =? fst Q) eqn:C, (fst Q <? fst P) eqn:D; repeat split; try reflexivity; lia.
Qed.
Print Assumptions C67_order.
(** for canonical points: < is the order of x, equality aside; points that differ only in y
    are incomparable, and <= is not total *)
Theorem C67_canonical : forall c P Q, 1 < c_p c -> canonical (c_p c) P -> canonical (c_p c) Q ->
  (pt_lt c P Q = true <-> fst P < fst Q) /\ (pt_gt c P Q = true <-> fst Q < fst P) /\
  (pt_le c P Q = true <-> P = Q \/ fst P < fst Q) /\ (pt_ge c P Q = true <-> P = Q \/ fst Q < fst P).
Proof.
  intros c P Q H CP CQ. destruct (C67_order c P Q) as (A & B & C & D). rewrite A, B, C, D.
  assert (E : point_eq c Q P = true <-> P = Q).
  { rewrite point_eq_iff by lia. split; [intros [X Y]; symmetry; apply (canon_eq (c_p c)); assumption|]. intros ->. split; reflexivity. }
  rewrite !andb_true_iff, !orb_true_iff, !negb_true_iff, !Z.ltb_lt, E.
  assert (N : fst P <> fst Q -> point_eq c Q P = false). { intros X. destruct (point_eq c Q P); [|reflexivity]. exfalso. apply X. f_equal. tauto. }
  assert (N1 : fst P < fst Q -> point_eq c Q P = false) by (intros; apply N; lia).
  assert (N2 : fst Q < fst P -> point_eq c Q P = false) by (intros; apply N; lia).
  clear A B C D E N. intuition.
Qed.
Print Assumptions C67_canonical.
Theorem C67_incomparable : forall c x y y', 1 < c_p c -> canonical (c_p c) (x, y) -> canonical (c_p c) (x, y') -> y <> y' ->
  pt_lt c (x, y) (x, y') = false /\ pt_gt c (x, y) (x, y') = false /\ pt_le c (x, y) (x, y') = false /\ pt_ge c (x, y) (x, y') = false.
Proof.
  intros c x y y' H CP CQ N. destruct (C67_canonical c _ _ H CP CQ) as (A & B & C & D). cbn [fst] in *.
  assert (NE : (x, y) <> (x, y')) by congruence.
  repeat split; apply not_true_iff_false; intros X; [apply A in X|apply B in X|apply C in X|apply D in X]; try lia; destruct X; try tauto; lia.
Qed.
Print Assumptions C67_incomparable.
Example C67_example : let c := mkCurve 7 1 3 in pt_lt c (4, 1) (5, 0) = true /\ pt_le c (4, 1) (4, 6) = false /\ pt_le c (4, 6) (4, 1) = false /\ canonical 7 (4, 6).
Proof. vm_compute. repeat split; reflexivity || discriminate. Qed.
