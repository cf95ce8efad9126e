(** * L_EC2: encoding and decoding of points *)
From Coq Require Import ZArith Znumtheory Lia List Setoid.
From Verif Require Import M_Py M_UInt M_Writer M_Reader M_ECCurve L_Bytes L_IO L_Hex L_Fermat L_Prime L_Field L_EC S_IO S_EC.
Import ListNotations.
Open Scope Z_scope.

(** the curves covered: prime modulus of 249 to 256 bits, 3 modulo 4 *)
Definition good (c : curve) : Prop := prime (c_p c) /\ c_p c mod 4 = 3 /\ 2 ^ 248 <= c_p c < 2 ^ 256.
Lemma good_r1 : good secp256r1.
Proof. split; [exact prime_p256|]. split; [reflexivity|]. split; [discriminate|reflexivity]. Qed.
Lemma good_k1 : good secp256k1.
Proof. split; [exact prime_p256k1|]. split; [reflexivity|]. split; [discriminate|reflexivity]. Qed.
Lemma good_pos c : good c -> 2 < c_p c.
Proof. intros (_ & _ & H & _). assert (2 < 2 ^ 248) by reflexivity. lia. Qed.
Lemma good_len c : good c -> int_div (bit_length (c_p c) + 7) 8 = Ok 32.
Proof.
  intros G. pose proof (good_pos c G). destruct G as (_ & _ & A & B). unfold bit_length. replace (c_p c =? 0) with false by lia. rewrite Z.abs_eq by lia.
  assert (L1 : 248 <= Z.log2 (c_p c)) by (apply Z.log2_le_pow2; lia). assert (L2 : Z.log2 (c_p c) < 256) by (apply Z.log2_lt_pow2; lia).
  set (k := Z.log2 (c_p c)) in *. clearbody k.
  assert (C : k = 248 \/ k = 249 \/ k = 250 \/ k = 251 \/ k = 252 \/ k = 253 \/ k = 254 \/ k = 255) by lia.
  repeat (destruct C as [->|C]; [vm_compute; reflexivity|]). subst k. vm_compute. reflexivity.
Qed.

Lemma coord_num data : coord data = num_be data.
Proof. unfold coord. rewrite num_be_eq, le2z_app. cbn [le2z]. change (b2z x00) with 0. lia. Qed.
Lemma num_be_bound l : 0 <= num_be l < 256 ^ zlen l.
Proof. rewrite num_be_eq. rewrite <- zlen_rev. apply le2z_bound. Qed.
Lemma be32_bytes z : 0 <= z < 2 ^ 256 -> int_to_bytes LE false 32 z = Ok (z2le 32 z) /\ be32 z (rev (z2le 32 z)).
Proof.
  intros H. split.
  - unfold int_to_bytes. rewrite (proj2 (int_fits_spec false 32 z ltac:(lia))); [reflexivity|]. cbn [int_min int_max]. change (256 ^ Z.of_nat 32) with (2 ^ 256). lia.
  - split; [rewrite rev_length; apply z2le_length|]. rewrite num_be_eq, rev_involutive, le2z_z2le. apply Z.mod_small. change (256 ^ Z.of_nat 32) with (2 ^ 256). exact H.
Qed.
Lemma be32_inj z a b : be32 z a -> be32 z b -> a = b.
Proof.
  intros [L V] [L' V']. rewrite num_be_eq in V, V'. rewrite <- (rev_involutive a), <- (rev_involutive b). f_equal. apply le2z_inj; [rewrite !rev_length; lia|congruence].
Qed.

(** ** right-hand side *)
Lemma rhs_cong c x : 0 < c_p c -> cong (c_p c) (curve_rhs c x) (x * x * x + c_a c * x + c_b c).
Proof.
  intros P. unfold curve_rhs. rewrite fadd_cong, fadd_cong, fpow_cong, fmul_cong by lia. apply cong_eq. ring.
Qed.
Lemma rhs_range c x : 0 < c_p c -> 0 <= curve_rhs c x < c_p c.
Proof. intros P. unfold curve_rhs. apply Z.mod_pos_bound, P. Qed.
Lemma isoncurve_iff c P : 0 < c_p c -> isoncurve c P = true <-> P = (0, 0) \/ equation (c_p c) (c_a c) (c_b c) (fst P) (snd P).
Proof.
  intros H. unfold isoncurve. rewrite orb_true_iff, iszero_iff, feq_cong by exact H. unfold equation. rewrite same_cong, rhs_cong by exact H.
  rewrite fpow_cong by lia. rewrite Z.pow_2_r. tauto.
Qed.

(** ** decompression *)
Definition parity_ok (p y flag : Z) : Prop := y = 0 \/ Z.odd y = (flag =? 1).
Lemma odd_flip p z : Z.odd p = true -> Z.odd (p - z) = negb (Z.odd z).
Proof. intros H. rewrite Z.odd_sub, H. destruct (Z.odd z); reflexivity. Qed.
Lemma mod4_odd p : p mod 4 = 3 -> Z.odd p = true.
Proof. intros H. rewrite (Z.div_mod p 4) by lia. rewrite H. replace (4 * (p / 4) + 3) with (3 + 2 * (2 * (p / 4))) by ring. rewrite Z.odd_add_mul_2. reflexivity. Qed.
Lemma mod2_odd z : (z mod 2 =? 0) = negb (Z.odd z).
Proof. rewrite Zmod_odd. destruct (Z.odd z); reflexivity. Qed.
Lemma decompress_square c x flag : good c -> flag = 0 \/ flag = 1 -> square (c_p c) (x * x * x + c_a c * x + c_b c) ->
  exists y, decompress_from_curve c x flag = Ok (x, y) /\ 0 <= y < c_p c /\ equation (c_p c) (c_a c) (c_b c) x y /\ (y = 0 \/ Z.odd y = (flag =? 1)).
Proof.
  intros G F [s S]. pose proof (good_pos c G). destruct G as (Hp & M & _). rewrite same_cong in S. rewrite <- rhs_cong in S by lia.
  destruct (sqrtCQ_total (c_p c) (curve_rhs c x) s Hp M (rhs_range c x ltac:(lia)) S) as [z E].
  destruct (sqrtCQ_root _ _ _ Hp M E) as (Z1 & _ & Z2). rewrite rhs_cong in Z2 by lia. unfold decompress_from_curve. rewrite E. rewrite mod2_odd.
  pose proof (mod4_odd _ M) as O.
  assert (Neg : 0 <= (c_p c - z) mod c_p c < c_p c /\ equation (c_p c) (c_a c) (c_b c) x ((c_p c - z) mod c_p c) /\ ((c_p c - z) mod c_p c = 0 \/ Z.odd ((c_p c - z) mod c_p c) = negb (Z.odd z))).
  { split; [apply Z.mod_pos_bound; lia|]. split.
    - unfold equation. rewrite same_cong. rewrite cong_mod by lia. rewrite <- Z2. pose proof (fneg_cong (c_p c) z) as FN. unfold fneg_ in FN. rewrite FN. apply cong_eq. ring.
    - destruct (Z.eq_dec z 0) as [->|N]; [left; rewrite Z.sub_0_r; apply Z.mod_same; lia|]. right. rewrite Z.mod_small by lia. apply odd_flip, O. }
  destruct (Z.odd z) eqn:Oz; cbn [negb].
  - destruct F as [->| ->]; cbn [Z.eqb]; [exists ((c_p c - z) mod c_p c)|exists z]; (split; [reflexivity|]).
    + cbn [negb] in Neg. tauto.
    + split; [exact Z1|]. split; [exact Z2|]. right. exact Oz.
  - destruct F as [->| ->]; cbn [Z.eqb]; [exists z|exists ((c_p c - z) mod c_p c)]; (split; [reflexivity|]).
    + split; [exact Z1|]. split; [exact Z2|]. right. exact Oz.
    + cbn [negb] in Neg. tauto.
Qed.
Lemma decompress_nonsquare c x flag : good c -> ~ square (c_p c) (x * x * x + c_a c * x + c_b c) -> decompress_from_curve c x flag = Raise TypeError.
Proof.
  intros G N. pose proof (good_pos c G). destruct G as (Hp & M & _). unfold decompress_from_curve.
  destruct (sqrtCQ (curve_rhs c x) (c_p c)) as [z|] eqn:E; [|reflexivity]. exfalso. apply N. exists z. destruct (sqrtCQ_root _ _ _ Hp M E) as (_ & _ & Z2). rewrite rhs_cong in Z2 by lia. exact Z2.
Qed.
(** the y coordinate is determined by its square and its parity *)
Lemma parity_unique p y y' : prime p -> p mod 4 = 3 -> 0 <= y < p -> 0 <= y' < p -> cong p (y * y) (y' * y') ->
  Z.odd y = Z.odd y' \/ y = 0 \/ y' = 0 -> y = y'.
Proof.
  intros Hp M Y Y' E O. pose proof (prime_pos p Hp). pose proof (mod4_odd p M) as Op. destruct (sq_opp p y y' Hp E) as [S|S]; [apply (cong_small p); assumption|].
  destruct (Z.eq_dec y' 0) as [->|N']; [apply (cong_small p); assumption|].
  assert (S' : cong p y (p - y')) by (rewrite S; symmetry; exact (fneg_cong p y')).
  apply cong_small in S'; [|lia|lia]. subst y. rewrite odd_flip in O by exact Op. destruct O as [O|[O|O]]; [destruct (Z.odd y'); discriminate|lia|lia].
Qed.
Lemma decompress_point c x y flag : good c -> canonical (c_p c) (x, y) -> equation (c_p c) (c_a c) (c_b c) x y ->
  flag = 0 \/ flag = 1 -> Z.odd y = (flag =? 1) -> decompress_from_curve c x flag = Ok (x, y).
Proof.
  intros G [CX CY] E F O. destruct (decompress_square c x flag G F) as (y' & D & R & E' & P); [exists y; exact E|].
  rewrite D. do 2 f_equal. destruct G as (Hp & M & _). cbn [fst snd] in *. apply (parity_unique (c_p c)); try assumption.
  - unfold equation in *. rewrite same_cong in *. rewrite E, E'. reflexivity.
  - destruct P as [->|P]; [tauto|]. left. congruence.
Qed.

(** ** arguments *)
Lemma carries_decode c v unhex ba : carries v unhex ba -> decode_from_hex c v unhex = decode_ba c ba.
Proof.
  intros H. destruct H as [t ba H|t ba H|s ba H|ba|ba]; unfold decode_from_hex, unhexlify; try reflexivity.
  - rewrite (proj2 (unhex_denotes _ _) H). reflexivity.
  - rewrite (proj2 (unhex_denotes _ _) H). reflexivity.
  - rewrite hex_text_ascii by (eapply hex_denotes_text; exact H). rewrite (proj2 (unhex_denotes _ _) H). reflexivity.
Qed.
Lemma b2z_02 : b2z x02 = 2. Proof. reflexivity. Qed.
Lemma decode_compressed c f xb : good c -> f = x02 \/ f = x03 ->
  decode_ba c (f :: xb) = if zlen xb =? 32 then decompress_from_curve c (num_be xb) (b2z f - 2) else Raise PlainException.
Proof.
  intros G F. unfold decode_ba. rewrite (good_len c G). cbn [rbind]. rewrite coord_num. rewrite zlen_cons. change (32 + 1) with 33.
  assert (L : (1 + zlen xb =? 33) = (zlen xb =? 32)) by lia. rewrite L.
  destruct F as [-> | ->]; [change (b2z x02) with 2|change (b2z x03) with 3]; cbn [Z.eqb Pos.eqb orb]; destruct (zlen xb =? 32); reflexivity.
Qed.
Lemma decode_uncompressed c rest : good c ->
  decode_ba c (x04 :: rest) = if zlen rest =? 64 then Ok (num_be (firstn 32 rest), num_be (skipn 32 rest)) else Raise PlainException.
Proof.
  intros G. unfold decode_ba. rewrite (good_len c G). cbn [rbind]. rewrite zlen_cons, !coord_num. change (2 * 32 + 1) with 65.
  assert (L : (1 + zlen rest =? 65) = (zlen rest =? 64)) by lia. rewrite L.
  change (b2z x04) with 4. change (Z.to_nat 32) with 32%nat. cbn [Z.eqb Pos.eqb orb]. destruct (zlen rest =? 64); reflexivity.
Qed.

Lemma two_encodings c f x xb xb' : good c -> f = x02 \/ f = x03 -> be32 x xb -> be32 (x + c_p c) xb' ->
  square (c_p c) (x * x * x + c_a c * x + c_b c) ->
  exists y, decode_from_hex c (VBytes (f :: xb)) false = Ok (x, y) /\ decode_from_hex c (VBytes (f :: xb')) false = Ok (x + c_p c, y) /\
  isoncurve c (x, y) = true /\ isoncurve c (x + c_p c, y) = true /\ point_eq c (x, y) (x + c_p c, y) = true.
Proof.
  intros G F [L V] [L' V'] S. pose proof (good_pos c G) as P1. assert (P0 : 0 < c_p c) by lia.
  destruct (decompress_square c x (b2z f - 2) G) as (y & D & R & E & P); [destruct F as [-> | ->]; [left|right]; reflexivity|exact S|].
  assert (CX : cong (c_p c) (x + c_p c) x) by (exists 1; ring).
  assert (RE : curve_rhs c (x + c_p c) = curve_rhs c x).
  { apply (cong_small (c_p c)); [apply rhs_range, P0|apply rhs_range, P0|]. rewrite !rhs_cong by exact P0.
    apply cong_add; [|reflexivity]. apply cong_add; repeat apply cong_mul; try exact CX; reflexivity. }
  assert (D' : decompress_from_curve c (x + c_p c) (b2z f - 2) = Ok (x + c_p c, y)).
  { unfold decompress_from_curve in *. rewrite RE. destruct (sqrtCQ _ _) as [z|]; [|discriminate]. cbv zeta in *. do 2 f_equal. congruence. }
  exists y. unfold decode_from_hex. rewrite !decode_compressed by assumption. unfold zlen. rewrite L, L'. change (Z.of_nat 32 =? 32) with true. cbv iota. rewrite V, V', D, D'.
  split; [reflexivity|]. split; [reflexivity|]. split; [apply isoncurve_iff; [exact P0|right; exact E]|].
  split.
  - apply isoncurve_iff; [exact P0|]. right. cbn [fst snd]. unfold equation in *. rewrite same_cong in *. rewrite E.
    apply cong_add; [|reflexivity]. symmetry. apply cong_add; repeat apply cong_mul; try exact CX; reflexivity.
  - apply point_eq_iff; [exact P0|]. cbn [fst snd]. split; [symmetry; exact CX|reflexivity].
Qed.
