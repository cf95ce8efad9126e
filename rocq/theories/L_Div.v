(** * L_Div: the bits that the loop of point division sees (C89) *)
From Coq Require Import Reals ZArith Znumtheory Lia Lra List Bool.
From Flocq Require Import Core Digits.
From Flocq Require Import BinarySingleNaN.
From Coq Require Import Floats.SpecFloat.
From Verif Require Import M_Py M_Float M_ECCurve S_Float L_Float S_EC L_Mul L_Mul2.
Import ListNotations.
Open Scope Z_scope.
Local Instance Hprec : FLX.Prec_gt_0 53 := eq_refl _.
Local Instance Hmax : Prec_lt_emax 53 1024 := eq_refl _.

Lemma halvings_pow k : forall n, halvings n (2 ^ Z.of_nat k) -> n = S k.
Proof.
  induction k as [|k IH]; intros n H; inversion H as [E|n' z N H' E1 E2]; subst.
  - change (2 ^ Z.of_nat 0) with 1 in H'. change (half_even 1) with 0 in H'. inversion H'; congruence.
  - exfalso. assert (0 < 2 ^ Z.of_nat (S k)) by (apply Z.pow_pos_nonneg; lia). lia.
  - rewrite Nat2Z.inj_succ, Z.pow_succ_r in H' by lia. replace (half_even (2 * 2 ^ Z.of_nat k)) with (2 ^ Z.of_nat k) in H'; [f_equal; apply IH, H'|].
    unfold half_even. rewrite Z.even_mul. cbn [orb Z.even]. rewrite Z.mul_comm, Z.div_mul by lia. reflexivity.
Qed.
Lemma rnd_bpow e : -1074 <= e -> rnd64 (bpow radix2 e) = bpow radix2 e.
Proof. intros H. apply round_generic; [auto with typeclass_instances|]. apply generic_format_bpow. unfold FLT_exp. lia. Qed.
Lemma rnd_mono x y : (x <= y)%R -> (rnd64 x <= rnd64 y)%R.
Proof. apply round_le; auto with typeclass_instances. Qed.
Lemma rnd_Rabs x : Rabs (rnd64 x) = rnd64 (Rabs x).
Proof. unfold rnd64. rewrite <- round_NE_abs by auto with typeclass_instances. reflexivity. Qed.
Lemma sub_bpow z j : 0 <= j -> z = 2 ^ j -> sub z = bpow radix2 (j - 1074).
Proof. intros J ->. unfold sub. change (2 ^ j) with (Zpower radix2 j). rewrite IZR_Zpower by exact J. rewrite <- bpow_plus. f_equal. Qed.
Lemma sub_le z z' : (sub z <= sub z')%R <-> z <= z'.
Proof.
  unfold sub. split; intros H.
  - apply Rmult_le_reg_r in H; [|apply bpow_gt_0]. apply le_IZR, H.
  - apply Rmult_le_compat_r; [apply bpow_ge_0|apply IZR_le, H].
Qed.
Lemma inv_abs a : a <> 0 -> Rabs (1 / IZR a) = (/ IZR (Z.abs a))%R.
Proof. intros H. unfold Rdiv. rewrite Rmult_1_l, Rabs_inv, abs_IZR. reflexivity. Qed.
Lemma inv_ge a j : 0 < a <= 2 ^ j -> 0 <= j -> (bpow radix2 (- j) <= / IZR a)%R.
Proof.
  intros A J. rewrite bpow_opp. apply Rinv_le_contravar; [apply IZR_lt; lia|]. rewrite <- IZR_Zpower by exact J. apply IZR_le, A.
Qed.
Lemma inv_le a j : 2 ^ j <= a -> 0 <= j -> (/ IZR a <= bpow radix2 (- j))%R.
Proof.
  intros A J. rewrite bpow_opp. apply Rinv_le_contravar; [apply bpow_gt_0|]. rewrite <- IZR_Zpower by exact J. apply IZR_le, A.
Qed.
Lemma rnd_tiny : rnd64 (bpow radix2 (-1075)) = 0%R.
Proof.
  pose proof (rnd_sub_half 1 ltac:(lia)) as H. change (half_even 1) with 0 in H. unfold sub in H. rewrite Rmult_0_l, Rmult_1_l in H. rewrite <- H. f_equal.
  change (-1075) with (-1074 + -1). rewrite bpow_plus. reflexivity.
Qed.
Lemma all_true w N : 0 < w <= 2 ^ 1074 -> map (fun i => negb (w mod 2 ^ (1075 + Z.of_nat i) =? 0)) (seq 0 N) = repeat true N.
Proof.
  intros W. assert (G : forall s, map (fun i => negb (w mod 2 ^ (1075 + Z.of_nat i) =? 0)) (seq s N) = repeat true N); [|apply G]. induction N as [|N IH]; intros s; [reflexivity|]. cbn [seq map repeat]. rewrite IH. f_equal.
  assert (2 ^ 1074 < 2 ^ (1075 + Z.of_nat s)) by (apply Z.pow_lt_mono_r; lia). rewrite Z.mod_small by lia. replace (w =? 0) with false by lia. reflexivity.
Qed.
(** the quotient 1/a and its digits *)
Lemma quotient_bits a : a <> 0 -> exists f N, int_truediv 1 a = Ok f /\ float_bits 2200 f = repeat true N /\ (N <= 1076)%nat /\
  (forall j, 0 <= j -> Z.abs a = 2 ^ j -> Z.of_nat N = Z.max 0 (1075 - j)) /\
  (forall j, 0 <= j <= 1000 -> 2 ^ j <= Z.abs a < 2 ^ (j + 1) -> 1074 - j <= Z.of_nat N <= 1075 - j).
Proof.
  intros A0. destruct (int_truediv_spec 1 a A0) as [(f & F & I & _)|[O _]].
  2:{ exfalso. unfold overflows in O. rewrite rnd_Rabs, inv_abs in O by exact A0. apply (Rle_not_lt _ _ O).
      apply Rle_lt_trans with (rnd64 (bpow radix2 0)); [apply rnd_mono, (inv_le _ 0); lia|]. rewrite rnd_bpow by lia. apply bpow_lt. lia. }
  assert (U : (Rabs (rnd64 (1 / IZR a)) <= bpow radix2 0)%R).
  { rewrite rnd_Rabs, inv_abs by exact A0. rewrite <- (rnd_bpow 0) by lia. apply rnd_mono, (inv_le _ 0); lia. }
  exists f. pose proof I as (Ff & Fv & FR). destruct f as [s|s| |s m e]; try discriminate.
  - (* rounded to zero *)
    cbn in FR. assert (R0 : rnd64 (/ IZR (Z.abs a)) = 0%R) by (rewrite <- inv_abs by exact A0; rewrite <- rnd_Rabs, <- FR; apply Rabs_R0).
    exists 0%nat. split; [exact F|]. split; [reflexivity|]. split; [lia|].
    assert (G : forall j, 0 <= j -> Z.abs a <= 2 ^ j -> 1074 < j).
    { intros j J L. destruct (Z.le_gt_cases j 1074) as [G|]; [|assumption]. exfalso. pose proof (rnd_mono _ _ (inv_ge (Z.abs a) j ltac:(lia) J)) as X. rewrite R0, rnd_bpow in X by lia.
      pose proof (bpow_gt_0 radix2 (- j)). lra. }
    split.
    + intros j J E. specialize (G j J ltac:(lia)). lia.
    + intros j J E. specialize (G (j + 1) ltac:(lia) ltac:(lia)). lia.
  - cbn [valid_binary] in Fv. destruct (finite_sub s m e Fv) as (A & M & E). destruct (bits_finite s m e Fv) as (n & Hn & B). exists (Z.to_nat (e + 1074) + n)%nat.
    specialize (B 2200%nat ltac:(lia)). set (w := Zpos m * 2 ^ (e + 1074)) in *. assert (P0 : 0 < 2 ^ (e + 1074)) by (apply Z.pow_pos_nonneg; lia). assert (W0 : 0 < w) by (apply Z.mul_pos_pos; lia).
    rewrite <- FR, A in U. change 0 with (1074 - 1074) in U. rewrite <- (sub_bpow (2 ^ 1074) 1074) in U by (lia || reflexivity). apply sub_le in U.
    rewrite all_true in B by lia. split; [exact F|]. split; [exact B|].
    (* the mantissa between two powers of two *)
    destruct (Z.log2_spec (Zpos m) ltac:(lia)) as [L1 L2]. set (t := Z.log2 (Zpos m)) in *. assert (T0 : 0 <= t) by (apply Z.log2_nonneg).
    assert (T1 : (S (Z.to_nat t) <= n <= S (S (Z.to_nat t)))%nat).
    { apply (halvings_between (Z.to_nat t) (Zpos m)); [|exact Hn]. rewrite Z2Nat.id by lia. change (t + 1) with (Z.succ t) || replace (t + 1) with (Z.succ t) by lia. lia. }
    assert (WL : 2 ^ (t + (e + 1074)) <= w). { rewrite Z.pow_add_r by lia. apply Z.mul_le_mono_nonneg_r; lia. }
    assert (WU : w < 2 ^ (Z.succ t + (e + 1074))). { rewrite Z.pow_add_r by lia. apply Z.mul_lt_mono_pos_r; lia. }
    assert (TE : t + (e + 1074) <= 1074). { destruct (Z.le_gt_cases (t + (e + 1074)) 1074) as [|G]; [assumption|]. exfalso. assert (2 ^ 1074 < 2 ^ (t + (e + 1074))) by (apply Z.pow_lt_mono_r; lia). lia. }
    split; [lia|].
    assert (LO : forall j, 0 <= j -> j <= 1074 -> Z.abs a <= 2 ^ j -> 2 ^ (1074 - j) <= w).
    { intros j J J2 L. apply sub_le. rewrite <- A, FR, (sub_bpow (2 ^ (1074 - j)) (1074 - j)) by (lia || reflexivity). rewrite rnd_Rabs, inv_abs by exact A0. replace (1074 - j - 1074) with (- j) by lia.
      rewrite <- (rnd_bpow (- j)) by lia. apply rnd_mono, inv_ge; lia. }
    assert (HI : forall j, 0 <= j -> j <= 1074 -> 2 ^ j <= Z.abs a -> w <= 2 ^ (1074 - j)).
    { intros j J J2 L. apply sub_le. rewrite <- A, FR, (sub_bpow (2 ^ (1074 - j)) (1074 - j)) by (lia || reflexivity). rewrite rnd_Rabs, inv_abs by exact A0. replace (1074 - j - 1074) with (- j) by lia.
      rewrite <- (rnd_bpow (- j)) by lia. apply rnd_mono, inv_le; lia. }
    assert (EX : forall j, 0 <= j <= 1074 -> w = 2 ^ j -> Z.of_nat (Z.to_nat (e + 1074) + n) = j + 1).
    { intros j J EW. assert (D : t + (e + 1074) = j).
      { apply Z.le_antisymm.
        - apply (Z.pow_le_mono_r_iff 2); lia.
        - apply Z.lt_succ_r. replace (Z.succ (t + (e + 1074))) with (Z.succ t + (e + 1074)) by lia. apply (Z.pow_lt_mono_r_iff 2); lia. }
      assert (EM : Zpos m = 2 ^ t). { apply (Z.mul_cancel_r _ _ (2 ^ (e + 1074))); [lia|]. rewrite <- Z.pow_add_r by lia. rewrite D. exact EW. }
      rewrite EM in Hn. rewrite <- (Z2Nat.id t T0) in Hn. apply halvings_pow in Hn. lia. }
    split.
    + intros j J EA. destruct (Z.le_gt_cases j 1074) as [J2|J2].
      * assert (w = 2 ^ (1074 - j)) as EW by (apply Z.le_antisymm; [apply HI; lia|apply LO; lia]). rewrite (EX (1074 - j) ltac:(lia) EW). lia.
      * exfalso. assert (X : (Rabs (rnd64 (1 / IZR a)) <= 0)%R).
        { rewrite rnd_Rabs, inv_abs by exact A0. rewrite <- rnd_tiny. apply rnd_mono. apply Rle_trans with (bpow radix2 (- j)); [apply inv_le; lia|]. apply bpow_le. lia. }
        rewrite <- FR, A in X. change 0%R with (IZR 0) in X. assert (sub 0 = 0%R) by (apply Rmult_0_l). rewrite <- H in X. apply sub_le in X. lia.
    + intros j J EA. specialize (LO (j + 1) ltac:(lia) ltac:(lia) ltac:(lia)). specialize (HI j ltac:(lia) ltac:(lia) ltac:(lia)).
      assert (Q1 : t + (e + 1074) <= 1074 - j) by (apply (Z.pow_le_mono_r_iff 2); lia).
      assert (Q2 : 1074 - (j + 1) < Z.succ t + (e + 1074)) by (apply (Z.pow_lt_mono_r_iff 2); lia).
      destruct (Z.eq_dec (t + (e + 1074)) (1074 - j)) as [Q|Q].
      * assert (w = 2 ^ (1074 - j)) as EW by (rewrite <- Q in *; lia). rewrite (EX (1074 - j) ltac:(lia) EW). lia.
      * lia.
Qed.
