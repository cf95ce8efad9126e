(** * L_Mul2: the exact shape of the bit sequence that multiplication uses *)
From Coq Require Import Reals ZArith Lia Lra List Bool.
From Flocq Require Import Core.
From Flocq Require Import BinarySingleNaN.
From Coq Require Import Floats.SpecFloat.
From Verif Require Import M_Py M_Float M_ECCurve S_Float L_Float L_Mul S_EC.
Import ListNotations.
Open Scope Z_scope.
Local Instance Hprec : FLX.Prec_gt_0 53 := eq_refl _.
Local Instance Hmax : Prec_lt_emax 53 1024 := eq_refl _.

Lemma half_even_between j z : 0 <= j -> 2 ^ (j + 1) <= z <= 2 ^ (j + 2) -> 2 ^ j <= half_even z <= 2 ^ (j + 1).
Proof.
  intros J. replace (j + 2) with (Z.succ (j + 1)) by lia. rewrite (Z.pow_succ_r 2 (j + 1)) by lia. replace (j + 1) with (Z.succ j) by lia. rewrite (Z.pow_succ_r 2 j) by lia. intros Z.
  assert (0 < 2 ^ j) by (apply Z.pow_pos_nonneg; lia). unfold half_even. pose proof (Z.div_mod z 2 ltac:(lia)) as D. pose proof (Z.mod_pos_bound z 2 ltac:(lia)) as B.
  assert (z / 2 < 2 * 2 ^ j \/ z = 4 * 2 ^ j) as [L|L] by lia.
  - destruct (Z.even z); [lia|]. destruct (Z.even (z / 2)); lia.
  - assert (Z.even z = true) as ->; [|lia]. rewrite L. change 4 with (2 * 2). rewrite <- Z.mul_assoc. apply Z.even_spec. exists (2 * 2 ^ j). ring.
Qed.
Lemma halvings_between (j : nat) : forall z n, 2 ^ Z.of_nat j <= z <= 2 ^ (Z.of_nat j + 1) -> halvings n z -> (S j <= n <= S (S j))%nat.
Proof.
  induction j as [|j IH]; intros z n B H.
  - change (2 ^ Z.of_nat 0) with 1 in B. change (2 ^ (Z.of_nat 0 + 1)) with 2 in B. inversion H as [E|n' z' N H']; subst; [lia|]. assert (z = 1 \/ z = 2) as [-> | ->] by lia.
    + change (half_even 1) with 0 in H'. inversion H' as [|? ? X]; subst; [lia|congruence].
    + change (half_even 2) with 1 in H'. inversion H' as [|n'' z'' N' H'']; subst. change (half_even 1) with 0 in H''. inversion H'' as [|? ? X]; subst; [lia|congruence].
  - rewrite Nat2Z.inj_succ in B. replace (Z.succ (Z.of_nat j) + 1) with (Z.of_nat j + 2) in B by lia. replace (Z.succ (Z.of_nat j)) with (Z.of_nat j + 1) in B by lia.
    assert (0 < 2 ^ (Z.of_nat j + 1)) by (apply Z.pow_pos_nonneg; lia). inversion H as [E|n' z' N H']; subst; [lia|].
    pose proof (half_even_between (Z.of_nat j) z ltac:(lia) B) as B'. specialize (IH _ _ B' H'). lia.
Qed.

Lemma half_bits_exact k f : k <> 0 -> Z.abs k < 2 ^ 256 -> float_is f (rnd64 (IZR k / 2)) -> exists sg m e n a, f = S754_finite sg m e /\
  2 ^ 52 <= Zpos m < 2 ^ 53 /\ -53 <= e <= 203 /\ (53 <= n <= 54)%nat /\ (a <= 255)%nat /\ (a < Z.to_nat (e + 1074) + n)%nat /\
  (Zpos m * 2 ^ (e + 1074)) mod 2 ^ (1075 + Z.of_nat a) <> 0 /\ (a = 0%nat \/ (Zpos m * 2 ^ (e + 1074)) mod 2 ^ (1074 + Z.of_nat a) = 0) /\
  float_bits 2200 f = repeat false a ++ repeat true (Z.to_nat (e + 1074) + n - a).
Proof.
  intros N K F.
  assert (HL : (/ 2 <= Rabs (rnd64 (IZR k / 2)))%R).
  { unfold rnd64. rewrite <- round_NE_abs by auto with typeclass_instances. apply round_ge_generic; [auto with typeclass_instances..| |].
    - change (/ 2)%R with (bpow radix2 (-1)). apply generic_format_bpow. unfold FLT_exp. lia.
    - unfold Rdiv. rewrite Rabs_mult, (Rabs_pos_eq (/ 2)), <- abs_IZR by lra. assert (1 <= IZR (Z.abs k))%R by (apply IZR_le; lia). lra. }
  assert (HU : (Rabs (rnd64 (IZR k / 2)) <= bpow radix2 255)%R).
  { unfold rnd64. rewrite <- round_NE_abs by auto with typeclass_instances. apply round_le_generic; [auto with typeclass_instances..| |].
    - apply generic_format_bpow. unfold FLT_exp. lia.
    - unfold Rdiv. rewrite Rabs_mult, (Rabs_pos_eq (/ 2)), <- abs_IZR by lra. assert (X : (IZR (Z.abs k) <= bpow radix2 256)%R).
      { rewrite <- (IZR_Zpower radix2 256) by lia. apply IZR_le. change (Zpower radix2 256) with (2 ^ 256). lia. }
      change 256 with (255 + 1) in X. rewrite bpow_plus in X. change (bpow radix2 1) with 2%R in X. lra. }
  destruct F as (Ff & Fv & FR). destruct f as [s|s| |s m e]; try discriminate.
  { exfalso. rewrite <- FR in HL. cbn in HL. rewrite Rabs_R0 in HL. lra. }
  cbn [valid_binary] in Fv. destruct (finite_sub s m e Fv) as (A & M & E). destruct (bits_finite s m e Fv) as (n & Hn & B). rewrite (B 2200%nat) by lia. clear B.
  rewrite <- FR, A in HL, HU. set (w := Zpos m * 2 ^ (e + 1074)) in *.
  assert (W1 : 2 ^ 1073 <= w).
  { apply le_IZR. change (2 ^ 1073) with (Zpower radix2 1073). rewrite IZR_Zpower by lia. apply Rmult_le_reg_r with (bpow radix2 (-1074)); [apply bpow_gt_0|].
    rewrite <- bpow_plus. change (1073 + -1074) with (-1). exact HL. }
  assert (W2 : w <= 2 ^ 1329).
  { apply le_IZR. change (2 ^ 1329) with (Zpower radix2 1329). rewrite IZR_Zpower by lia. apply Rmult_le_reg_r with (bpow radix2 (-1074)); [apply bpow_gt_0|].
    rewrite <- bpow_plus. change (1329 + -1074) with 255. exact HU. }
  (* the mantissa has 53 digits *)
  assert (P0 : 0 < 2 ^ (e + 1074)) by (apply Z.pow_pos_nonneg; lia).
  assert (M2 : 2 ^ 52 <= Zpos m).
  { unfold bounded, canonical_mantissa in Fv. apply andb_prop in Fv. destruct Fv as [Fv _]. apply Zeq_bool_eq in Fv. unfold SpecFloat.fexp, SpecFloat.emin in Fv.
    rewrite Zpos_digits2_pos in Fv. assert (D : Zdigits radix2 (Zpos m) = 53).
    { destruct (Z.max_spec (Zdigits radix2 (Zpos m) + e - 53) (3 - 1024 - 53)) as [[C X]|[C X]]; rewrite X in Fv; [|lia]. exfalso.
      assert (e + 1074 = 0) as Z0 by lia. unfold w in W1. rewrite Z0, Z.mul_1_r in W1. assert (2 ^ 53 < 2 ^ 1073) by (apply Z.pow_lt_mono_r; lia). lia. }
    pose proof (Zdigits_correct radix2 (Zpos m)) as [L _]. rewrite D in L. exact L. }
  assert (E1 : e <= 203).
  { destruct (Z.le_gt_cases e 203) as [|G]; [assumption|]. exfalso. assert (2 ^ 1278 <= 2 ^ (e + 1074)) by (apply Z.pow_le_mono_r; lia). assert (2 ^ 1329 < 2 ^ 52 * 2 ^ 1278) by (rewrite <- Z.pow_add_r by lia; apply Z.pow_lt_mono_r; lia).
    unfold w in W2. assert (2 ^ 52 * 2 ^ 1278 <= Zpos m * 2 ^ (e + 1074)) by (apply Z.mul_le_mono_nonneg; lia). lia. }
  assert (E2 : -53 <= e).
  { destruct (Z.le_gt_cases (-53) e) as [|G]; [assumption|]. exfalso. assert (2 ^ (e + 1074) <= 2 ^ 1020) by (apply Z.pow_le_mono_r; lia).
    assert (Zpos m * 2 ^ (e + 1074) < 2 ^ 53 * 2 ^ 1020). { apply Z.lt_le_trans with (2 ^ 53 * 2 ^ (e + 1074)); [apply Z.mul_lt_mono_pos_r; lia|apply Z.mul_le_mono_nonneg_l; lia]. }
    rewrite <- Z.pow_add_r in H0 by lia. change (53 + 1020) with 1073 in H0. unfold w in W1. lia. }
  assert (HN : (53 <= n <= 54)%nat).
  { apply (halvings_between 52 (Zpos m)); [|exact Hn]. change (2 ^ Z.of_nat 52) with (2 ^ 52). change (2 ^ (Z.of_nat 52 + 1)) with (2 ^ 53). lia. }
  destruct (monotone_bits (fun i => negb (w mod 2 ^ (1075 + Z.of_nat i) =? 0)) (Z.to_nat (e + 1074) + n)) as (a & b & S1 & F1 & Z1).
  - intros i. rewrite !negb_true_iff, !Z.eqb_neq. intros X Y. apply X. assert (P : forall z, 0 <= z -> 2 ^ z <> 0) by (intros; apply Z.pow_nonzero; lia).
    apply Z.mod_divide; [apply P; lia|]. apply Z.mod_divide in Y; [|apply P; lia]. eapply Z.divide_trans; [|exact Y]. exists 2. rewrite Nat2Z.inj_succ.
    replace (1075 + Z.succ (Z.of_nat i)) with (Z.succ (1075 + Z.of_nat i)) by lia. apply Z.pow_succ_r. lia.
  - exists s, m, e, n, a.
    assert (A1 : (a <= 255)%nat).
    { destruct (Nat.le_gt_cases a 255) as [|G]; [assumption|]. exfalso. specialize (Z1 255%nat G). cbn beta in Z1. apply negb_false_iff, Z.eqb_eq in Z1.
      change (1075 + Z.of_nat 255) with 1330 in Z1. assert (0 < 2 ^ 1073) by (apply Z.pow_pos_nonneg; lia). assert (2 ^ 1329 < 2 ^ 1330) by (apply Z.pow_lt_mono_r; lia). rewrite Z.mod_small in Z1 by lia. lia. }
    split; [reflexivity|]. split; [lia|]. split; [lia|]. split; [exact HN|]. split; [exact A1|]. split; [lia|]. split; [|split].
    + assert (NM : forall (g : nat -> bool) N, (a < N)%nat -> nth a (map g (seq 0 N)) false = g a).
      { intros g N' L. rewrite (nth_indep _ false (g 0%nat)) by (rewrite map_length, seq_length; lia). rewrite map_nth, seq_nth by lia. reflexivity. }
      pose proof (NM (fun i => negb (w mod 2 ^ (1075 + Z.of_nat i) =? 0)) (Z.to_nat (e + 1074) + n)%nat ltac:(lia)) as X. rewrite F1 in X.
      rewrite app_nth2 in X by (rewrite repeat_length; lia). rewrite repeat_length, Nat.sub_diag in X. destruct b as [|b]; [lia|]. cbn [repeat nth] in X. symmetry in X. apply negb_true_iff, Z.eqb_neq in X. exact X.
    + destruct a as [|a]; [left; reflexivity|right]. specialize (Z1 a ltac:(lia)). cbn beta in Z1. apply negb_false_iff, Z.eqb_eq in Z1.
      replace (1074 + Z.of_nat (S a)) with (1075 + Z.of_nat a) by lia. exact Z1.
    + replace (Z.to_nat (e + 1074) + n - a)%nat with b by lia. exact F1.
Qed.
Lemma half_bits_shape k f : k <> 0 -> Z.abs k < 2 ^ 256 -> float_is f (rnd64 (IZR k / 2)) -> exists a s, (a <= 255)%nat /\ (1074 <= s <= 1331)%nat /\ (a <= s)%nat /\
  float_bits 2200 f = repeat false a ++ repeat true (s - a).
Proof.
  intros N K F. destruct (half_bits_exact k f N K F) as (sg & m & e & n & a & _ & _ & E & HN & A & A2 & _ & _ & B). exists a, (Z.to_nat (e + 1074) + n)%nat. split; [exact A|]. split; [lia|]. split; [lia|exact B].
Qed.
Lemma finite_bound k sg m e : 0 < k -> -53 <= e -> Zpos m < 2 ^ 53 -> float_is (S754_finite sg m e) (rnd64 (IZR k / 2)) -> k <= 2 ^ (e + 54).
Proof.
  intros K E M F. destruct (Z.le_gt_cases k (2 ^ (e + 54))) as [|G]; [assumption|]. exfalso. destruct F as (_ & Fv & FR). cbn [valid_binary] in Fv.
  destruct (finite_sub sg m e Fv) as (A & _ & _). rewrite FR in A.
  assert (L : (bpow radix2 (e + 53) <= rnd64 (IZR k / 2))%R).
  { unfold rnd64. apply round_ge_generic; [auto with typeclass_instances..| |]; [apply generic_format_bpow; unfold FLT_exp; lia|].
    apply IZR_lt in G. change (2 ^ (e + 54)) with (Zpower radix2 (e + 54)) in G. rewrite IZR_Zpower in G by lia. replace (e + 54) with (e + 53 + 1) in G by lia. rewrite bpow_plus in G. change (bpow radix2 1) with 2%R in G. lra. }
  assert (P : (0 < bpow radix2 (e + 53))%R) by apply bpow_gt_0. rewrite Rabs_pos_eq in A by lra. rewrite A in L. unfold sub in L. rewrite mult_IZR in L.
  change (2 ^ (e + 1074)) with (Zpower radix2 (e + 1074)) in L. rewrite IZR_Zpower in L by lia. rewrite Rmult_assoc, <- bpow_plus in L. replace (e + 1074 + -1074) with e in L by lia.
  apply IZR_lt in M. change (2 ^ 53) with (Zpower radix2 53) in M. rewrite IZR_Zpower in M by lia. rewrite Z.add_comm, bpow_plus in L. pose proof (bpow_gt_0 radix2 e) as Pe.
  apply (Rmult_lt_compat_r _ _ _ Pe) in M. lra.
Qed.
Lemma zeros_bound w a j : 0 < w < 2 ^ (j + 1) -> 0 <= a -> 0 <= j -> w mod 2 ^ a = 0 -> a <= j.
Proof.
  intros W A J M. destruct (Z.le_gt_cases a j) as [|G]; [assumption|]. exfalso. assert (2 ^ (j + 1) <= 2 ^ a) by (apply Z.pow_le_mono_r; lia). rewrite Z.mod_small in M; lia.
Qed.
