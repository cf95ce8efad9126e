(** * L_Mul: the bits that the floating-point loop of point multiplication sees *)
From Coq Require Import Reals ZArith Lia Lra List Bool.
From Flocq Require Import Core.
From Flocq Require Import BinarySingleNaN.
From Coq Require Import Floats.SpecFloat.
From Verif Require Import M_Py M_Float M_ECCurve S_Float L_Float S_EC.
Import ListNotations.
Open Scope Z_scope.
Local Instance Hprec : FLX.Prec_gt_0 53 := eq_refl _.
Local Instance Hmax : Prec_lt_emax 53 1024 := eq_refl _.

(** ** the loop is a fold over a bit list that depends on the scalar only *)
Fixpoint float_bits (fuel : nat) (s : pyfloat) : list bool :=
  match fuel with
  | O => []
  | S k => if ftruthy s then negb (f_even s) :: float_bits k (f_half s) else []
  end.
Lemma mul_loop_bits fuel c : forall acc sh s, mul_loop_float fuel c acc sh s = add_bits (ec_add c) (float_bits fuel s) acc sh.
Proof.
  induction fuel as [|k IH]; intros acc sh s; [reflexivity|]. cbn [mul_loop_float float_bits].
  destruct (ftruthy s); [|reflexivity]. cbn [negb add_bits]. rewrite IH. destruct (f_even s); reflexivity.
Qed.

(** ** halving *)
Lemma f_half_spec f x : float_is f x -> float_is (f_half f) (rnd64 (x / 2)).
Proof.
  intros (Hf & Hv & <-). destruct f as [s|s| |s m e]; try discriminate.
  - cbn. unfold Rdiv. rewrite Rmult_0_l. unfold rnd64. rewrite round_0 by auto with typeclass_instances. repeat split.
  - cbn [valid_binary] in Hv.
    assert (R : rounded (f_half (S754_finite s m e)) s (SF2R radix2 (S754_finite s m e) / 2)).
    { apply rounded_of. unfold f_half, SFdiv, fprec, femax.
      pose proof (Bdiv_correct_aux 53 1024 Hprec Hmax mode_NE s m e false 4503599627370496 (-51)) as H. cbv zeta in H.
      destruct (SFdiv_core_binary 53 1024 (Zpos m) e 4503599627370496 (-51)) as [[mz ez] lz]. rewrite bra_equiv.
      replace (F2R (Float radix2 (cond_Zopp false 4503599627370496) (-51))) with 2%R in H by (unfold F2R; cbn; lra).
      rewrite xorb_false_r in *. exact H. }
    destruct R as [V [(H1 & H2 & H3 & H4)|[O E]]]; [split; [exact H3|split; [exact V|exact H2]]|].
    exfalso. unfold overflows in O. apply (Rle_not_lt _ _ O). clear O E V.
    set (x := SF2R radix2 (S754_finite s m e)) in *.
    assert (G : generic_format radix2 (FLT_exp (-1074) 53) (Rabs x)).
    { apply generic_format_abs. apply generic_format_FLT. apply FLT_format_generic; [reflexivity|].
      unfold x, SF2R. apply (generic_format_canonical radix2 (FLT_exp (-1074) 53)). apply (canonical_bounded 53 1024 s m e Hv). }
    assert (L : (Rabs (rnd64 (x / 2)) <= Rabs x)%R).
    { unfold rnd64. rewrite <- round_NE_abs by auto with typeclass_instances. apply round_le_generic; [auto with typeclass_instances..|exact G|].
      unfold Rdiv. rewrite Rabs_mult. rewrite (Rabs_pos_eq (/ 2)) by lra. pose proof (Rabs_pos x). lra. }
    eapply Rle_lt_trans; [exact L|]. unfold x, SF2R. rewrite <- F2R_Zabs, abs_cond_Zopp. apply (bounded_lt_emax 53 1024 m e Hv).
Qed.
Lemma half_even_spec z : ZnearestE (IZR z / 2) = half_even z.
Proof.
  unfold half_even. destruct (Z.even z) eqn:E.
  - apply Zeven_bool_iff in E. pose proof (Zeven_div2 z E) as D. rewrite Z.div2_div in D. rewrite D at 1. rewrite mult_IZR.
    replace (2 * IZR (z / 2) / 2)%R with (IZR (z / 2)) by lra. apply Znearest_imp. rewrite Rminus_diag_eq by reflexivity. rewrite Rabs_R0. lra.
  - assert (D : z = 2 * (z / 2) + 1). { pose proof (Zmod_odd z) as M. rewrite <- Z.negb_even, E in M. cbn in M. rewrite <- M. apply Z.div_mod. lia. }
    set (q := z / 2) in *. clearbody q. subst z.
    assert (F : Zfloor (IZR (2 * q + 1) / 2) = q). { apply Zfloor_imp. rewrite plus_IZR, mult_IZR, plus_IZR. lra. }
    assert (C : Zceil (IZR (2 * q + 1) / 2) = q + 1). { apply Zceil_imp. rewrite minus_IZR, !plus_IZR, mult_IZR. lra. }
    unfold Znearest. rewrite F, C. rewrite Rcompare_Eq by (rewrite plus_IZR, mult_IZR; lra). destruct (Z.even q); reflexivity.
Qed.
Definition sub (z : Z) : R := (IZR z * bpow radix2 (-1074))%R.
Lemma rnd_sub_exact k j : 0 <= k < 2 ^ 53 -> 0 <= j -> rnd64 (sub (k * 2 ^ j)) = sub (k * 2 ^ j).
Proof.
  intros K J. apply round_generic; [auto with typeclass_instances|]. apply generic_format_FLT.
  exists (Float radix2 k (j - 1074)); [|change (Z.abs k < 2 ^ 53); lia|cbn [Fexp]; lia].
  unfold sub, F2R. cbn [Fnum Fexp]. rewrite mult_IZR. replace (j - 1074) with (j + -1074) by lia. rewrite bpow_plus.
  change (2 ^ j) with (Zpower radix2 j). rewrite (IZR_Zpower radix2 j) by exact J. ring.
Qed.
Lemma rnd_sub_half z : 0 <= z < 2 ^ 53 -> rnd64 (sub z / 2) = sub (half_even z).
Proof.
  intros H. destruct (Z.eq_dec z 0) as [->|N].
  { unfold sub. rewrite Rmult_0_l. unfold Rdiv. rewrite Rmult_0_l. unfold rnd64. rewrite round_0 by auto with typeclass_instances. change (half_even 0) with 0. symmetry. apply Rmult_0_l. }
  unfold rnd64, round, scaled_mantissa. 
  assert (E : cexp radix2 (FLT_exp (-1074) 53) (sub z / 2) = -1074).
  { apply cexp_FLT_FIX; [unfold sub, Rdiv; pose proof (bpow_gt_0 radix2 (-1074)); assert (IZR z <> 0)%R by (apply IZR_neq; exact N); assert (/ 2 <> 0)%R by lra;
      repeat apply Rmult_integral_contrapositive_currified; try assumption; lra|].
    rewrite Rabs_pos_eq. 2: { unfold sub. pose proof (bpow_gt_0 radix2 (-1074)). assert (0 <= IZR z)%R by (apply IZR_le; lia). assert (0 <= IZR z * bpow radix2 (-1074))%R by nra. lra. }
    replace (-1074 + 53) with (53 + -1074) by lia. rewrite bpow_plus. unfold sub. rewrite <- (IZR_Zpower radix2 53) by lia. change (Zpower radix2 53) with (2 ^ 53).
    assert (IZR z < IZR (2 ^ 53))%R by (apply IZR_lt; lia). assert (0 < IZR z)%R by (apply IZR_lt; lia). pose proof (bpow_gt_0 radix2 (-1074)).
    apply Rle_lt_trans with (IZR z * bpow radix2 (-1074))%R; [|apply Rmult_lt_compat_r; assumption].
    assert (0 < IZR z * bpow radix2 (-1074))%R by (apply Rmult_lt_0_compat; assumption). lra. }
  rewrite E. unfold F2R. cbn [Fnum Fexp]. unfold sub at 2. f_equal. f_equal. rewrite <- half_even_spec. f_equal.
  unfold sub. change (- (-1074)) with 1074. unfold Rdiv.
  replace (IZR z * bpow radix2 (-1074) * / 2 * bpow radix2 1074)%R with (IZR z * / 2 * (bpow radix2 (-1074) * bpow radix2 1074))%R by ring.
  rewrite <- bpow_plus. change (-1074 + 1074) with 0. cbn [bpow]. ring.
Qed.
Lemma rnd_abs x : Rabs (rnd64 (x / 2)) = rnd64 (Rabs x / 2).
Proof.
  unfold rnd64. rewrite <- round_NE_abs by auto with typeclass_instances. f_equal. unfold Rdiv. rewrite Rabs_mult, (Rabs_pos_eq (/ 2)) by lra. reflexivity.
Qed.

(** ** parity *)
Lemma f_even_spec f x w : float_is f x -> Rabs x = sub w -> 0 < w -> f_even f = (w mod 2 ^ 1075 =? 0) /\ ftruthy f = true.
Proof.
  intros (Hf & Hv & <-) A W. destruct f as [s|s| |s m e]; try discriminate.
  { exfalso. cbn in A. rewrite Rabs_R0 in A. unfold sub in A. symmetry in A. apply Rmult_integral in A. pose proof (bpow_gt_0 radix2 (-1074)). destruct A as [A|A]; [apply eq_IZR_R0 in A; lia|lra]. }
  split; [|reflexivity].
  unfold SF2R in A. rewrite <- F2R_Zabs, abs_cond_Zopp in A. unfold F2R in A. cbn [Fnum Fexp Z.abs] in A.
  assert (E1 : -1074 <= e). { cbn [valid_binary] in Hv. unfold bounded, canonical_mantissa in Hv. apply andb_prop in Hv. destruct Hv as [Hv _]. apply Zeq_bool_eq in Hv. unfold SpecFloat.fexp, SpecFloat.emin in Hv. lia. }
  assert (M : w = Zpos m * 2 ^ (e + 1074)).
  { apply eq_IZR. rewrite mult_IZR. change (2 ^ (e + 1074)) with (Zpower radix2 (e + 1074)). rewrite IZR_Zpower by lia.
    unfold sub in A. assert (B : (IZR w * bpow radix2 (-1074) * bpow radix2 1074 = IZR w)%R) by (rewrite Rmult_assoc, <- bpow_plus; change (-1074 + 1074) with 0; cbn [bpow]; ring).
    rewrite <- B, <- A, Rmult_assoc, <- bpow_plus. reflexivity. }
  cbn [f_even]. subst w. destruct (Z.ltb_spec 0 e) as [P|P].
  - symmetry. apply Z.eqb_eq. replace (e + 1074) with ((e - 1) + 1075) by lia. rewrite Z.pow_add_r by lia. rewrite Z.mul_assoc. apply Z.mod_mul. apply Z.pow_nonzero; lia.
  - assert (D : 2 ^ 1075 = 2 ^ (1 - e) * 2 ^ (e + 1074)) by (rewrite <- Z.pow_add_r by lia; f_equal; lia).
    assert (Pe : 0 < 2 ^ (e + 1074)) by (apply Z.pow_pos_nonneg; lia). assert (Q : 0 < 2 ^ (1 - e)) by (apply Z.pow_pos_nonneg; lia).
    rewrite D, Z.mul_mod_distr_r by lia.
    assert (X : (Zpos m mod 2 ^ (1 - e) * 2 ^ (e + 1074) =? 0) = (Zpos m mod 2 ^ (1 - e) =? 0)).
    { destruct (Z.eqb_spec (Zpos m mod 2 ^ (1 - e)) 0) as [->|N]; [reflexivity|]. apply Z.eqb_neq. intros H. apply Z.mul_eq_0 in H. lia. }
    rewrite X. destruct (Z.ltb_spec e (- Zpos (Pos.size m))) as [S|S]; [|reflexivity].
    symmetry. apply Z.eqb_neq. rewrite Z.mod_small; [lia|]. split; [lia|].
    apply Z.lt_le_trans with (2 ^ Zpos (Pos.size m)); [rewrite <- Pos2Z.inj_pow; apply Pos2Z.pos_lt_pos; apply Pos.size_gt|]. apply Z.pow_le_mono_r; lia.
Qed.

(** ** the bit list *)
Lemma float_is_zero f x : float_is f x -> Rabs x = 0%R -> ftruthy f = false.
Proof.
  intros (Hf & _ & <-) A. destruct f as [s|s| |s m e]; try discriminate; [reflexivity|]. exfalso.
  apply Rabs_eq_R0 in A. unfold SF2R in A. apply eq_0_F2R in A. destruct s; discriminate.
Qed.
Lemma half_even_bound z : 0 <= z -> 0 <= half_even z <= (z + 1) / 2.
Proof.
  intros H. unfold half_even. destruct (Z.even z) eqn:E.
  - split; [apply Z.div_pos; lia|apply Z.div_le_mono; lia].
  - assert (D : z = 2 * (z / 2) + 1). { pose proof (Zmod_odd z) as M. rewrite <- Z.negb_even, E in M. cbn in M. rewrite <- M. apply Z.div_mod. lia. }
    assert (0 <= z / 2) by (apply Z.div_pos; lia). assert (Q : (z + 1) / 2 = z / 2 + 1). { rewrite D at 1. replace (2 * (z / 2) + 1 + 1) with ((z / 2 + 1) * 2) by ring. apply Z.div_mul. lia. }
    rewrite Q. destruct (Z.even (z / 2)); lia.
Qed.
Lemma halvings_exist k : forall z, 0 <= z <= 2 ^ Z.of_nat k -> exists n, halvings n z /\ (n <= k + 1)%nat.
Proof.
  induction k as [|k IH]; intros z Z0.
  - change (2 ^ Z.of_nat 0) with 1 in Z0. assert (z = 0 \/ z = 1) as [-> | ->] by lia.
    + exists 0%nat. split; [constructor|lia].
    + exists 1%nat. split; [|lia]. constructor; [lia|]. constructor.
  - destruct (Z.eq_dec z 0) as [->|N]; [exists 0%nat; split; [constructor|lia]|].
    destruct (IH (half_even z)) as (n & H & L).
    { pose proof (half_even_bound z ltac:(lia)) as B. split; [lia|]. rewrite Nat2Z.inj_succ, Z.pow_succ_r in Z0 by lia.
      assert (P : 0 < 2 ^ Z.of_nat k) by (apply Z.pow_pos_nonneg; lia).
      assert ((z + 1) / 2 < 2 ^ Z.of_nat k + 1) by (apply Z.div_lt_upper_bound; lia). lia. }
    exists (S n). split; [constructor; assumption|lia].
Qed.
Lemma halvings_fun n : forall z m, halvings n z -> halvings m z -> n = m.
Proof. induction n as [|n IH]; intros z m A B; inversion A; subst; inversion B; subst; try lia. f_equal. eapply IH; eassumption. Qed.

Lemma bits_tail n : forall z f x fuel, halvings n z -> 0 <= z < 2 ^ 53 -> float_is f x -> Rabs x = sub z -> (n <= fuel)%nat -> float_bits fuel f = repeat true n.
Proof.
  induction n as [|n IH]; intros z f x fuel H Z0 F A L.
  - inversion H; subst. destruct fuel as [|fuel]; [reflexivity|]. cbn [float_bits]. rewrite (float_is_zero f x F); [reflexivity|]. rewrite A. apply Rmult_0_l.
  - inversion H as [|n' z' N H']; subst. destruct fuel as [|fuel]; [lia|]. cbn [float_bits repeat].
    destruct (f_even_spec f x z F A ltac:(lia)) as [E ->]. rewrite E.
    assert (2 ^ 53 < 2 ^ 1075) by reflexivity. rewrite Z.mod_small by lia. replace (z =? 0) with false by lia. cbn [negb]. f_equal.
    apply (IH (half_even z) _ (rnd64 (x / 2))); [exact H'| |apply f_half_spec, F| |lia].
    + pose proof (half_even_bound z ltac:(lia)). assert ((z + 1) / 2 <= z) by (apply Z.div_le_upper_bound; lia). lia.
    + rewrite rnd_abs, A. apply rnd_sub_half. exact Z0.
Qed.
Lemma sub_half j k : 0 <= j -> (sub (k * 2 ^ Z.succ j) / 2 = sub (k * 2 ^ j))%R.
Proof. intros J. unfold sub. rewrite Z.pow_succ_r by exact J. rewrite !mult_IZR. lra. Qed.
Lemma bits_all j : forall k n f x fuel, 0 < k < 2 ^ 53 -> halvings n k -> float_is f x -> Rabs x = sub (k * 2 ^ Z.of_nat j) -> (j + n <= fuel)%nat ->
  float_bits fuel f = map (fun i => negb (k * 2 ^ Z.of_nat j mod 2 ^ (1075 + Z.of_nat i) =? 0)) (seq 0 (j + n)).
Proof.
  induction j as [|j IH]; intros k n f x fuel K H F A L.
  - change (2 ^ Z.of_nat 0) with 1 in A. rewrite (bits_tail n k f x fuel H ltac:(lia) F) by (rewrite Z.mul_1_r in A; (exact A || lia)).
    cbn [Nat.add]. symmetry. change (2 ^ Z.of_nat 0) with 1. generalize 0%nat. clear - K. induction n as [|n IH]; intros i; [reflexivity|]. cbn [seq map repeat]. rewrite IH. f_equal.
    rewrite Z.mul_1_r. assert (2 ^ 53 <= 2 ^ (1075 + Z.of_nat i)) by (apply Z.pow_le_mono_r; lia).
    rewrite Z.mod_small by lia. replace (k =? 0) with false by lia. reflexivity.
  - destruct fuel as [|fuel]; [lia|]. cbn [float_bits Nat.add seq map].
    assert (P : 0 < 2 ^ Z.of_nat (S j)) by (apply Z.pow_pos_nonneg; lia).
    destruct (f_even_spec f x _ F A ltac:(nia)) as [E ->]. rewrite E. change (1075 + Z.of_nat 0) with 1075. f_equal.
    rewrite (IH k n (f_half f) (rnd64 (x / 2)) fuel K H (f_half_spec f x F)); [|rewrite rnd_abs, A|lia].
    2:{ rewrite Nat2Z.inj_succ, sub_half by lia. apply rnd_sub_exact; lia. }
    rewrite <- seq_shift, map_map. apply map_ext. intros i. f_equal.
    rewrite !Nat2Z.inj_succ. replace (1075 + Z.succ (Z.of_nat i)) with (Z.succ (1075 + Z.of_nat i)) by lia. rewrite !Z.pow_succ_r by lia.
    rewrite Z.mul_assoc, (Z.mul_comm k 2), <- Z.mul_assoc. assert (0 < 2 ^ (1075 + Z.of_nat i)) by (apply Z.pow_pos_nonneg; lia). rewrite Z.mul_mod_distr_l by lia.
    destruct (Z.eqb_spec (k * 2 ^ Z.of_nat j mod 2 ^ (1075 + Z.of_nat i)) 0) as [->|N]; [reflexivity|]. symmetry. apply Z.eqb_neq. lia.
Qed.

(** 2200 steps are enough for every float *)
Lemma finite_sub s m e : bounded 53 1024 m e = true -> Rabs (SF2R radix2 (S754_finite s m e)) = sub (Zpos m * 2 ^ (e + 1074)) /\ 0 < Zpos m < 2 ^ 53 /\ 0 <= e + 1074 <= 2045.
Proof.
  intros Hv. unfold bounded, canonical_mantissa in Hv. apply andb_prop in Hv. destruct Hv as [Hc He]. apply Zeq_bool_eq in Hc. apply Zle_bool_imp_le in He.
  unfold SpecFloat.fexp, SpecFloat.emin in Hc.
  split; [|split; [|lia]].
  - unfold SF2R. rewrite <- F2R_Zabs, abs_cond_Zopp. unfold F2R, sub. cbn [Fnum Fexp Z.abs]. rewrite mult_IZR. change (2 ^ (e + 1074)) with (Zpower radix2 (e + 1074)).
    rewrite IZR_Zpower by lia. rewrite Rmult_assoc, <- bpow_plus. do 2 f_equal. lia.
  - split; [lia|]. assert (D : Zpos (SpecFloat.digits2_pos m) <= 53) by lia.
    pose proof (Digits.Zdigits_correct radix2 (Zpos m)) as [_ U]. rewrite <- Digits.Zpos_digits2_pos in U. change (Z.abs (Zpos m)) with (Zpos m) in U.
    eapply Z.lt_le_trans; [exact U|]. change (2 ^ 53) with (Zpower radix2 53). apply Zpower_le. exact D.
Qed.
Lemma bits_finite s m e : bounded 53 1024 m e = true -> exists n, halvings n (Zpos m) /\ forall fuel, (2200 <= fuel)%nat ->
  float_bits fuel (S754_finite s m e) = map (fun i => negb (Zpos m * 2 ^ (e + 1074) mod 2 ^ (1075 + Z.of_nat i) =? 0)) (seq 0 (Z.to_nat (e + 1074) + n)).
Proof.
  intros B. destruct (finite_sub s m e B) as (A & M & E). destruct (halvings_exist 53 (Zpos m)) as (n & H & L); [change (2 ^ Z.of_nat 53) with (2 ^ 53); lia|].
  exists n. split; [exact H|]. intros fuel Fu.
  rewrite (bits_all (Z.to_nat (e + 1074)) (Zpos m) n _ (SF2R radix2 (S754_finite s m e)) fuel M H); [|split; [reflexivity|split; [exact B|reflexivity]]|rewrite Z2Nat.id by lia; exact A|lia].
  rewrite Z2Nat.id by lia. reflexivity.
Qed.

(** a monotone predicate over an initial segment of the naturals *)
Lemma monotone_bits (g : nat -> bool) N : (forall i, g i = true -> g (S i) = true) -> exists a b, (a + b = N)%nat /\ map g (seq 0 N) = repeat false a ++ repeat true b /\ (forall i, (i < a)%nat -> g i = false).
Proof.
  intros M. induction N as [|N (a & b & S1 & E & F)].
  - exists 0%nat, 0%nat. repeat split. lia.
  - rewrite seq_S, map_app, E. cbn [Nat.add map]. destruct (g N) eqn:G.
    + exists a, (S b). split; [lia|]. split; [|exact F]. rewrite <- app_assoc. f_equal. change [true] with (repeat true 1). rewrite <- repeat_app. f_equal. lia.
    + destruct b as [|b].
      * exists (S a), 0%nat. split; [lia|]. split.
        { rewrite !app_nil_r. change [false] with (repeat false 1). rewrite <- repeat_app. f_equal. lia. }
        intros i I. destruct (Nat.eq_dec i a) as [->|]; [|apply F; lia]. assert (a = N) by lia. congruence.
      * exfalso. (* g true at a position below N *)
        assert (T : g a = true).
        { assert (X : nth a (map g (seq 0 N)) false = true). { rewrite E, app_nth2 by (rewrite repeat_length; lia). rewrite repeat_length, Nat.sub_diag. reflexivity. }
          rewrite (nth_indep _ false (g 0%nat)) in X by (rewrite map_length, seq_length; lia). rewrite map_nth, seq_nth in X by lia. exact X. }
        assert (U : forall d, g (a + d)%nat = true). { induction d as [|d IHd]; [rewrite Nat.add_0_r; exact T|]. rewrite Nat.add_succ_r. apply M, IHd. }
        specialize (U (S b)). rewrite S1 in U. congruence.
Qed.
Lemma half_bits k f : k <> 0 -> float_is f (rnd64 (IZR k / 2)) -> exists a b, float_bits 2200 f = repeat false a ++ repeat true b /\ (1000 <= b)%nat.
Proof.
  intros N F.
  (* the rounded value is at least 1/2 *)
  assert (H : (/ 2 <= Rabs (rnd64 (IZR k / 2)))%R).
  { unfold rnd64. rewrite <- round_NE_abs by auto with typeclass_instances. apply round_ge_generic; [auto with typeclass_instances..| |].
    - change (/ 2)%R with (bpow radix2 (-1)). apply generic_format_bpow. unfold FLT_exp. lia.
    - unfold Rdiv. rewrite Rabs_mult, (Rabs_pos_eq (/ 2)), <- abs_IZR by lra. assert (1 <= IZR (Z.abs k))%R by (apply IZR_le; lia). lra. }
  destruct F as (Ff & Fv & FR). destruct f as [s|s| |s m e]; try discriminate.
  { exfalso. rewrite <- FR in H. cbn in H. rewrite Rabs_R0 in H. lra. }
  cbn [valid_binary] in Fv. destruct (finite_sub s m e Fv) as (A & M & E). destruct (bits_finite s m e Fv) as (n & _ & B). rewrite (B 2200%nat) by lia. clear B.
  rewrite <- FR, A in H. set (w := Zpos m * 2 ^ (e + 1074)) in *.
  assert (E2 : 1021 <= e + 1074).
  { destruct (Z.le_gt_cases 1021 (e + 1074)) as [|G]; [assumption|]. exfalso. apply (Rle_not_lt _ _ H).
    assert (W : w < 2 ^ 1073). { unfold w. change (2 ^ 1073) with (2 ^ 53 * 2 ^ 1020). assert (2 ^ (e + 1074) <= 2 ^ 1020) by (apply Z.pow_le_mono_r; lia). assert (0 < 2 ^ (e + 1074)) by (apply Z.pow_pos_nonneg; lia).
      apply Z.lt_le_trans with (2 ^ 53 * 2 ^ (e + 1074)); [apply Z.mul_lt_mono_pos_r; lia|apply Z.mul_le_mono_nonneg_l; lia]. }
    unfold sub. apply IZR_lt in W. change (2 ^ 1073) with (Zpower radix2 1073) in W. rewrite IZR_Zpower in W by lia.
    replace (/ 2)%R with (bpow radix2 1073 * bpow radix2 (-1074))%R by (rewrite <- bpow_plus; change (1073 + -1074) with (-1); reflexivity).
    apply Rmult_lt_compat_r; [apply bpow_gt_0|exact W]. }
  assert (U : w < 2 ^ (e + 1074 + 53) /\ 0 < w).
  { unfold w. rewrite (Z.pow_add_r 2 (e + 1074) 53) by lia. assert (0 < 2 ^ (e + 1074)) by (apply Z.pow_pos_nonneg; lia). rewrite (Z.mul_comm (2 ^ (e + 1074)) (2 ^ 53)). split; [apply Z.mul_lt_mono_pos_r; lia|apply Z.mul_pos_pos; lia]. }
  destruct (monotone_bits (fun i => negb (w mod 2 ^ (1075 + Z.of_nat i) =? 0)) (Z.to_nat (e + 1074) + n)) as (a & b & S1 & E1 & Z1).
  - intros i. rewrite !negb_true_iff, !Z.eqb_neq. intros X Y. apply X. assert (P : forall z, 0 <= z -> 2 ^ z <> 0) by (intros; apply Z.pow_nonzero; lia).
    apply Z.mod_divide; [apply P; lia|]. apply Z.mod_divide in Y; [|apply P; lia]. eapply Z.divide_trans; [|exact Y]. exists 2. rewrite Nat2Z.inj_succ.
    replace (1075 + Z.succ (Z.of_nat i)) with (Z.succ (1075 + Z.of_nat i)) by lia. apply Z.pow_succ_r. lia.
  - exists a, b. split; [exact E1|].
    destruct (Nat.le_gt_cases 1000 b) as [|G]; [assumption|]. exfalso.
    (* then position a - 1 (or j - 1001) is false although w is too small *)
    destruct U as [U1 U2]. assert (A0 : (Z.to_nat (e + 1074) - 1000 < a)%nat) by lia.
    specialize (Z1 _ A0). cbn beta in Z1. apply negb_false_iff, Z.eqb_eq in Z1.
    rewrite Z.mod_small in Z1; [lia|]. split; [lia|]. eapply Z.lt_le_trans; [exact U1|]. apply Z.pow_le_mono_r; lia.
Qed.
Lemma ec_mul_ok c P k : Z.abs k <= 2 ^ 1024 -> exists Q, ec_mul c P (AInt k) = Ok Q.
Proof.
  intros K. unfold ec_mul. cbn [integer rbind]. destruct (k =? 0); [eexists; reflexivity|].
  destruct (int_truediv_spec k 2 ltac:(lia)) as [(f & -> & _)|[O _]]; [eexists; reflexivity|]. exfalso. unfold overflows in O. apply (Rle_not_lt _ _ O).
  apply Rle_lt_trans with (bpow radix2 1023); [|apply bpow_lt; lia].
  unfold rnd64. rewrite <- round_NE_abs by auto with typeclass_instances. apply round_le_generic; [auto with typeclass_instances..| |].
  - apply generic_format_bpow. unfold FLT_exp. lia.
  - unfold Rdiv. rewrite Rabs_mult, (Rabs_pos_eq (/ 2)), <- abs_IZR by lra. apply IZR_le in K. change (2 ^ 1024) with (Zpower radix2 1024) in K. rewrite IZR_Zpower in K by lia.
    change 1024 with (1023 + 1) in K. rewrite bpow_plus in K. change (bpow radix2 1) with 2%R in K. lra.
Qed.
