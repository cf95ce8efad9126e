(** * L_BigInteger *)
From Coq Require Import Lia ZifyBool ZifyNat ZifyN.
From Verif Require Import M_Py M_BigInteger S_IO S_BigInteger L_Bytes L_IO.

Lemma bit_length_neg x : bit_length (- x) = bit_length x.
Proof. unfold bit_length. replace (- x =? 0) with (x =? 0) by lia. rewrite Z.abs_opp. reflexivity. Qed.
Definition nb (x : Z) : Z := (bit_length x + 7) / 8.
Lemma bl_spec x : 0 < x -> 2 ^ (bit_length x - 1) <= x < 2 ^ bit_length x /\ 1 <= bit_length x.
Proof.
  intros H. unfold bit_length. replace (x =? 0) with false by lia. rewrite Z.abs_eq by lia.
  pose proof (Z.log2_spec x H) as L. pose proof (Z.log2_nonneg x).
  replace (Z.log2 x + 1 - 1) with (Z.log2 x) by lia. rewrite Z.add_1_r. lia.
Qed.
Lemma nb_digits x : 0 < x -> digits_256 x (nb x).
Proof.
  intros H. destruct (bl_spec x H) as [[H1 H2] H3]. unfold nb. set (b := bit_length x) in *.
  pose proof (Z.div_mod (b + 7) 8 ltac:(lia)) as E. pose proof (Z.mod_pos_bound (b + 7) 8 ltac:(lia)) as M.
  set (k := (b + 7) / 8) in *. split; [lia|].
  assert (forall j, 0 <= j -> 256 ^ j = 2 ^ (8 * j)) as P. { intros j Hj. rewrite Z.pow_mul_r by lia. reflexivity. }
  rewrite !P by lia. split.
  - etransitivity; [|exact H1]. apply Z.pow_le_mono_r; lia.
  - eapply Z.lt_le_trans; [exact H2|]. apply Z.pow_le_mono_r; lia.
Qed.
Lemma nb_neg x : nb (- x) = nb x.
Proof. unfold nb. rewrite bit_length_neg. reflexivity. Qed.
Lemma digits_pos x k : digits_256 x k -> (0 < Z.to_nat k)%nat /\ Z.of_nat (Z.to_nat k) = k.
Proof. intros [H _]. lia. Qed.

Lemma pow256_even k : 1 <= k -> 256 ^ k = 2 * (256 ^ k / 2) /\ 256 ^ k = 256 * 256 ^ (k - 1).
Proof.
  intros H. assert (E : 256 ^ k = 256 * 256 ^ (k - 1)). { rewrite <- Z.pow_succ_r by lia. f_equal. lia. }
  split; [|exact E]. rewrite E. replace (256 * 256 ^ (k-1)) with (2 * (128 * 256 ^ (k-1))) by ring.
  rewrite (Z.mul_comm 2 (128 * _)) at 2. rewrite Z.div_mul by lia. ring.
Qed.
Lemma fits_signed k z : 1 <= k -> int_fits true (Z.to_nat k) z = true <-> - 256 ^ k <= 2 * z < 256 ^ k.
Proof.
  intros H. rewrite int_fits_spec by lia. unfold int_min, int_max. rewrite Z2Nat.id by lia.
  pose proof (pow256_even k H) as [E _]. lia.
Qed.
Lemma fits_unsigned k z : 1 <= k -> int_fits false (Z.to_nat k) z = true <-> 0 <= z < 256 ^ k.
Proof. intros H. rewrite int_fits_spec by lia. unfold int_min, int_max. rewrite Z2Nat.id by lia. lia. Qed.

(** how many bytes ToByteArray uses *)
Definition out_len (x : Z) (sg : bool) : Z :=
  if x =? 0 then 1 else if x <? 0 then 1 + nb x
  else if int_fits sg (Z.to_nat (nb x)) x then nb x else 1 + nb x.

Lemma ToByteArray_eq x sg : ToByteArray x sg = Ok (z2le (Z.to_nat (out_len x sg)) x) /\
  1 <= out_len x sg /\ (int_fits true (Z.to_nat (out_len x sg)) x = true \/ (sg = false /\ int_fits false (Z.to_nat (out_len x sg)) x = true)).
Proof.
  unfold ToByteArray, out_len. destruct (x =? 0) eqn:E0.
  { assert (x = 0) as -> by lia. split; [reflexivity|]. split; [lia|]. left. reflexivity. }
  destruct (x <? 0) eqn:E1.
  - assert (D : digits_256 (- x) (nb x)) by (rewrite <- nb_neg; apply nb_digits; lia).
    destruct D as [D1 D2]. unfold int_to_bytes. fold (nb x).
    assert (F : int_fits true (Z.to_nat (1 + nb x)) x = true).
    { apply fits_signed; [lia|]. replace (1 + nb x) with (Z.succ (nb x)) by lia. rewrite Z.pow_succ_r by lia. lia. }
    rewrite F. split; [reflexivity|]. split; [lia|left; reflexivity].
  - assert (D : digits_256 x (nb x)) by (apply nb_digits; lia). destruct D as [D1 D2].
    unfold int_to_bytes. fold (nb x). destruct (int_fits sg (Z.to_nat (nb x)) x) eqn:F.
    + split; [reflexivity|]. split; [lia|]. destruct sg; auto.
    + assert (F2 : int_fits sg (Z.to_nat (1 + nb x)) x = true).
      { replace (1 + nb x) with (Z.succ (nb x)) by lia. destruct sg; [apply fits_signed|apply fits_unsigned]; try lia; rewrite Z.pow_succ_r; lia. }
      rewrite F2. split; [reflexivity|]. split; [lia|]. destruct sg; auto.
Qed.

Lemma ToByteArray_signed x : exists d, ToByteArray x true = Ok d /\ zlen d = out_len x true /\ twos_complement d x /\
  num LE d = (if x <? 0 then x + 256 ^ zlen d else x).
Proof.
  destruct (ToByteArray_eq x true) as (E & L & [F|[F _]]); [|discriminate].
  eexists. split; [exact E|]. assert (Hz : zlen (z2le (Z.to_nat (out_len x true)) x) = out_len x true).
  { unfold zlen. rewrite z2le_length. lia. }
  rewrite Hz. split; [reflexivity|]. apply fits_signed in F; [|lia].
  assert (N : num LE (z2le (Z.to_nat (out_len x true)) x) = if x <? 0 then x + 256 ^ out_len x true else x).
  { rewrite num_eq. unfold bytes2z, order_bytes. rewrite le2z_z2le, Z2Nat.id by lia.
    set (M := 256 ^ out_len x true) in *. destruct (x <? 0) eqn:Ex; [symmetry; apply Zmod_unique with (-1)|apply Z.mod_small]; lia. }
  split; [|exact N]. unfold twos_complement. rewrite Hz. split; [|split; [exact F|]].
  - intros K. apply (f_equal (@length _)) in K. rewrite z2le_length in K. cbn in K. lia.
  - rewrite N. destruct (x <? 0); auto.
Qed.
Lemma twos_from d x : twos_complement d x -> FromBytes d true = mkPI TBig x.
Proof.
  intros (Hne & Hr & Hn). unfold FromBytes, int_from_bytes. f_equal. rewrite num_eq in Hn. cbn [andb].
  pose proof (bytes2z_bound LE d) as B. destruct (256 ^ zlen d <=? 2 * bytes2z LE d) eqn:E; lia.
Qed.
Lemma twos_from_unsigned d x : twos_complement d x -> FromBytes d false = mkPI TBig (if x <? 0 then x + 256 ^ zlen d else x).
Proof.
  intros (Hne & Hr & Hn). unfold FromBytes, int_from_bytes. f_equal. rewrite num_eq in Hn. cbn [andb].
  pose proof (bytes2z_bound LE d) as B. destruct (x <? 0) eqn:E; lia.
Qed.
Lemma unsigned_spec x : 0 <= x -> exists d, ToByteArray x false = Ok d /\ num LE d = x /\
  FromBytes d false = mkPI TBig x /\ (x = 0 /\ d = [x00] \/ digits_256 x (zlen d)).
Proof.
  intros H. destruct (ToByteArray_eq x false) as (E & L & _). eexists. split; [exact E|].
  unfold out_len in *. destruct (x =? 0) eqn:E0.
  { assert (x = 0) as -> by lia. cbn. auto. }
  replace (x <? 0) with false in * by lia. destruct (nb_digits x) as [D1 D2]; [lia|].
  assert (F : int_fits false (Z.to_nat (nb x)) x = true) by (apply fits_unsigned; lia). rewrite F in *.
  assert (N : le2z (z2le (Z.to_nat (nb x)) x) = x) by (rewrite le2z_z2le, Z2Nat.id by lia; apply Z.mod_small; lia).
  split; [rewrite num_eq; exact N|]. split; [unfold FromBytes, int_from_bytes, bytes2z, order_bytes; cbn [andb]; rewrite N; reflexivity|].
  right. unfold zlen. rewrite z2le_length, Z2Nat.id by lia. split; lia.
Qed.

Lemma minimal_nonneg x d e : 0 <= x -> ToByteArray x true = Ok d -> twos_complement e x -> zlen d <= zlen e.
Proof.
  intros H Hd (He & Hr & _). destruct (ToByteArray_eq x true) as (E & L & _).
  assert (Hz : zlen d = out_len x true). { assert (d = z2le (Z.to_nat (out_len x true)) x) as -> by congruence. unfold zlen. rewrite z2le_length. lia. }
  rewrite Hz. assert (1 <= zlen e) by (destruct e; [congruence|rewrite zlen_cons; pose proof (zlen_nonneg e); lia]).
  unfold out_len. destruct (x =? 0) eqn:E0; [lia|]. replace (x <? 0) with false by lia.
  destruct (nb_digits x) as [D1 D2]; [lia|].
  assert (nb x <= zlen e).
  { destruct (Z.le_gt_cases (nb x) (zlen e)) as [K|K]; [exact K|]. assert (256 ^ zlen e <= 256 ^ (nb x - 1)) by (apply Z.pow_le_mono_r; lia). lia. }
  destruct (int_fits true (Z.to_nat (nb x)) x) eqn:F; [lia|].
  assert (nb x <> zlen e); [|lia]. intros K. assert (int_fits true (Z.to_nat (nb x)) x = true); [|congruence].
  apply fits_signed; [lia|]. rewrite K. exact Hr.
Qed.
Lemma neg_length x d k : x < 0 -> digits_256 (- x) k -> ToByteArray x true = Ok d -> zlen d = 1 + k.
Proof.
  intros H Hk Hd. destruct (ToByteArray_eq x true) as (E & L & _).
  assert (Hz : zlen d = out_len x true). { assert (d = z2le (Z.to_nat (out_len x true)) x) as -> by congruence. unfold zlen. rewrite z2le_length. lia. }
  rewrite Hz. unfold out_len. replace (x =? 0) with false by lia. replace (x <? 0) with true by lia. f_equal.
  assert (D : digits_256 (- x) (nb x)) by (rewrite <- nb_neg; apply nb_digits; lia).
  destruct D as [D1 D2], Hk as [K1 K2].
  destruct (Z.lt_trichotomy (nb x) k) as [T|[T|T]]; [|exact T|].
  - assert (256 ^ nb x <= 256 ^ (k - 1)) by (apply Z.pow_le_mono_r; lia). lia.
  - assert (256 ^ k <= 256 ^ (nb x - 1)) by (apply Z.pow_le_mono_r; lia). lia.
Qed.
(** shortest encodings of negative numbers *)
Lemma neg_shorter x k : x < 0 -> digits_256 (- x) k ->
  ((exists e, twos_complement e x /\ zlen e = k) <-> - x <= 2 ^ (8 * k - 1)) /\
  (forall e, twos_complement e x -> k <= zlen e).
Proof.
  intros H [K1 K2]. assert (P : 256 ^ k = 2 * 2 ^ (8 * k - 1)).
  { rewrite <- Z.pow_succ_r by lia. replace (Z.succ (8 * k - 1)) with (8 * k) by lia. rewrite Z.pow_mul_r by lia. reflexivity. }
  split.
  - split.
    + intros (e & (_ & Hr & _) & He). rewrite He in Hr. lia.
    + intros Hx. exists (z2le (Z.to_nat k) x). assert (Hz : zlen (z2le (Z.to_nat k) x) = k) by (unfold zlen; rewrite z2le_length; lia).
      split; [|exact Hz]. unfold twos_complement. rewrite Hz. split; [|split; [lia|]].
      * intros C. apply (f_equal (@length _)) in C. rewrite z2le_length in C. cbn in C. lia.
      * right. rewrite num_eq. unfold bytes2z, order_bytes. rewrite le2z_z2le, Z2Nat.id by lia. symmetry. apply Zmod_unique with (-1); lia.
  - intros e (He & Hr & _). destruct (Z.le_gt_cases k (zlen e)) as [L|L]; [exact L|].
    assert (256 ^ zlen e <= 256 ^ (k - 1)) by (apply Z.pow_le_mono_r; [lia|lia]). lia.
Qed.
