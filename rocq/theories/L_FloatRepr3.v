(** * L_FloatRepr3: v / 10^8 prints exactly up to 2^26 *)
From Coq Require Import String Reals Lia Lra Floats.SpecFloat.
From Flocq Require Import Core BinarySingleNaN.
From Verif Require Import M_Py M_Float M_Fixed8 M_FloatRepr S_Float S_Fixed8 L_Bytes L_Float L_Fixed8 L_Fixed8b L_FloatIO L_FloatRepr L_FloatRepr2.
Open Scope Z_scope.

Lemma half_ulp y E : -1021 <= E -> (0 < y < bpow radix2 E)%R -> (Rabs (rnd64 y - y) <= bpow radix2 (E - 54))%R.
Proof.
  intros HE Hy. eapply Rle_trans; [apply rnd64_err|]. rewrite ulp_neq_0 by lra. unfold cexp, FLT_exp.
  assert (mag radix2 y <= E) by (apply mag_le_bpow; [lra|rewrite Rabs_right by lra; lra]).
  replace (bpow radix2 (E - 54)) with (/ 2 * bpow radix2 (E - 53))%R.
  2:{ replace (E - 53) with (1 + (E - 54)) by lia. rewrite bpow_plus. change (bpow radix2 1) with 2%R. field. }
  apply Rmult_le_compat_l; [lra|]. apply bpow_le. lia.
Qed.
Lemma bpow26 : bpow radix2 26 = 67108864%R. Proof. rewrite <- IZR_2 by lia. reflexivity. Qed.
Lemma bpow27 : bpow radix2 27 = 134217728%R. Proof. rewrite <- IZR_2 by lia. reflexivity. Qed.
Lemma bpowm28 : bpow radix2 (26 - 54) = (/ 268435456)%R.
Proof. change (26 - 54) with (- (28)). rewrite bpow_opp, <- IZR_2 by lia. reflexivity. Qed.
Lemma bpowm27 : bpow radix2 (27 - 54) = (/ 134217728)%R.
Proof. change (27 - 54) with (- (27)). rewrite bpow_opp, <- IZR_2 by lia. reflexivity. Qed.
Lemma Rabs_bounds a b : (Rabs a <= b -> - b <= a <= b)%R. Proof. apply Rabs_le_inv. Qed.
(** two hundred-millionths that round to the same float, one of them at most 2^26, are equal *)
Lemma same_float v w : 1 <= v <= 2 ^ 26 * D -> 1 <= w -> rnd64 (IZR w / 100000000) = rnd64 (IZR v / 100000000) -> w = v.
Proof.
  intros Hv Hw E. unfold D in Hv. change (2 ^ 26 * 100000000) with 6710886400000000 in Hv.
  assert (Hv1 : (1 <= IZR v)%R) by (apply IZR_le; lia). assert (Hw1 : (1 <= IZR w)%R) by (apply IZR_le; lia).
  assert (G26 : rnd64 67108864 = 67108864%R) by (apply (rnd64_int 67108864); lia).
  assert (G27 : rnd64 134217728 = 134217728%R) by (apply (rnd64_int 134217728); lia).
  destruct (Z.eq_dec v 6710886400000000) as [->|Nv].
  - replace (6710886400000000 / 100000000)%R with 67108864%R in E by lra. rewrite G26 in E.
    destruct (Z_lt_le_dec w (13421772800000000)) as [L|L].
    + assert (Lr : (IZR w < 13421772800000000)%R) by (apply IZR_lt; lia).
      pose proof (half_ulp (IZR w / 100000000) 27 ltac:(lia) ltac:(rewrite bpow27; lra)) as Q. rewrite E, bpowm27 in Q. apply Rabs_bounds in Q.
      assert (6710886400000000 - 1 < w < 6710886400000000 + 1); [|lia]. split; apply lt_IZR; [rewrite minus_IZR|rewrite plus_IZR]; lra.
    + exfalso. assert (Lr : (13421772800000000 <= IZR w)%R) by (apply IZR_le; lia).
      assert (rnd64 134217728 <= rnd64 (IZR w / 100000000))%R by (apply rnd64_mono; lra). lra.
  - assert (Hv2 : (IZR v <= 6710886399999999)%R) by (apply IZR_le; lia).
    pose proof (half_ulp (IZR v / 100000000) 26 ltac:(lia) ltac:(rewrite bpow26; lra)) as Qv. rewrite bpowm28 in Qv. apply Rabs_bounds in Qv.
    destruct (Z_lt_le_dec w 6710886400000000) as [L|L].
    + assert (Lr : (IZR w < 6710886400000000)%R) by (apply IZR_lt; lia).
      pose proof (half_ulp (IZR w / 100000000) 26 ltac:(lia) ltac:(rewrite bpow26; lra)) as Q. rewrite E, bpowm28 in Q. apply Rabs_bounds in Q.
      assert (v - 1 < w < v + 1); [|lia]. split; apply lt_IZR; [rewrite minus_IZR|rewrite plus_IZR]; lra.
    + exfalso. assert (Lr : (6710886400000000 <= IZR w)%R) by (apply IZR_le; lia).
      assert (rnd64 67108864 <= rnd64 (IZR w / 100000000))%R by (apply rnd64_mono; lra). rewrite E, G26 in H. lra.
Qed.
Lemma dval_m8 v : dval v (-8) = (IZR v / 100000000)%R.
Proof. unfold dval. change (-8) with (- (8)). rewrite bpow_opp, <- IZR_10 by lia. reflexivity. Qed.
Lemma shortest_exact m e v : bounded 53 1024 m e = true -> 1 <= v <= 2 ^ 26 * D -> rnd64 (IZR v / 100000000) = SF2R radix2 (S754_finite false m e) ->
  let '(d, k) := shortest m e in 0 < d /\ -8 <= k /\ d * 10 ^ (k + 8) = v /\ (forall d', d <> 10 * d').
Proof.
  intros B Hv R. pose proof (shortest_spec m e B) as H. pose proof (shortest_no_ten m e B) as T. destruct (shortest m e) as [d k]. destruct H as (H1 & H2 & H3 & _).
  split; [exact H1|]. assert (K : -8 <= k). { apply (H3 v (-8)); [lia|]. rewrite dval_m8. exact R. } split; [exact K|]. split; [|exact T].
  apply same_float; [exact Hv| |].
  - pose proof (pow10_pos (k + 8) ltac:(lia)). nia.
  - rewrite <- dval_m8, dval_shift by lia. replace (-8 + (k + 8)) with k by lia. rewrite H2, R. reflexivity.
Qed.

(** int_truediv v D for v <> 0 small *)
Lemma truediv_D v : v <> 0 -> Z.abs v <= 2 ^ 53 -> exists m e,
  int_truediv v D = Ok (S754_finite (v <? 0) m e) /\ bounded 53 1024 m e = true /\ rnd64 (IZR (Z.abs v) / 100000000) = SF2R radix2 (S754_finite false m e).
Proof.
  intros Hv Hb. assert (E : int_truediv v D = match float_of_ratio (v <? 0) (Z.to_pos (Z.abs v)) 100000000 with
      | S754_infinity _ => Raise OverflowError | f => Ok f end).
  { unfold int_truediv, D. destruct v; [congruence| |]; reflexivity. }
  rewrite E. clear E. assert (Ha : 0 < Z.abs v) by lia. pose proof (ratio_rounded (v <? 0) (Z.to_pos (Z.abs v)) 100000000) as [V R].
  rewrite Z2Pos.id in R by lia. set (y := (IZR (Z.abs v) / 100000000)%R) in *.
  assert (Y1 : (1 <= IZR (Z.abs v))%R) by (apply IZR_le; lia).
  assert (Y2 : (IZR (Z.abs v) <= 9007199254740992)%R) by (apply IZR_le; lia).
  assert (AY : Rabs ((if v <? 0 then -1 else 1) * y) = y) by (rewrite Rabs_mult, (Rabs_right y) by (unfold y; lra); destruct (v <? 0); [rewrite Rabs_left1 by lra|rewrite Rabs_right by lra]; lra).
  assert (SY : rnd64 ((if v <? 0 then -1 else 1) * y) = ((if v <? 0 then -1 else 1) * rnd64 y)%R).
  { destruct (v <? 0); [|rewrite !Rmult_1_l; reflexivity]. replace (-1 * y)%R with (- y)%R by ring. rewrite rnd64_opp. ring. }
  assert (PY : (0 < rnd64 y)%R).
  { pose proof (rel_err y ltac:(unfold y; lra)) as Q. apply Rabs_bounds in Q. unfold y in *. lra. }
  destruct R as [(R1 & R2 & R3 & R4)|[O _]].
  - rewrite SY in R2. destruct (float_of_ratio _ _ _) as [s|s| |s m e] eqn:EE; try discriminate.
    + exfalso. cbn [SF2R] in R2. destruct (v <? 0); lra.
    + cbn [sign_SF] in R4. subst s. exists m, e. split; [reflexivity|]. split; [exact V|]. destruct (v <? 0).
      * change true with (negb false) in R2. rewrite SF2R_negb in R2. lra.
      * lra.
  - exfalso. revert O. apply small_no_overflow. change (2 ^ 53) with 9007199254740992. rewrite AY. unfold y. lra.
Qed.
