(** * L_Float: the float model computes correctly rounded results (via Flocq) *)
From Coq Require Import Reals Lia Lra.
From Flocq Require Import Core.
From Flocq Require Import BinarySingleNaN.
From Coq Require Import Floats.SpecFloat.
From Verif Require Import M_Py M_Float S_Float.

Local Instance Hprec : FLX.Prec_gt_0 53 := eq_refl _.
Local Instance Hmax : Prec_lt_emax 53 1024 := eq_refl _.

Lemma rne_equiv s m l : round_nearest_even m l = choice_mode mode_NE s m l.
Proof. case l; [reflexivity|intro c]. case c; [|reflexivity..]. now simpl; unfold Round.cond_incr; case Z.even. Qed.
Lemma bra_equiv prec emax sx mx ex lx :
  SpecFloat.binary_round_aux prec emax sx mx ex lx = BinarySingleNaN.binary_round_aux prec emax mode_NE sx mx ex lx.
Proof.
  unfold SpecFloat.binary_round_aux, BinarySingleNaN.binary_round_aux. set (mrse' := shr_fexp _ _ _ _ _).
  case mrse'; intros mrs' e'; simpl. now rewrite (rne_equiv sx).
Qed.
Lemma br_equiv prec emax s m e : SpecFloat.binary_round prec emax s m e = BinarySingleNaN.binary_round prec emax mode_NE s m e.
Proof.
  unfold SpecFloat.binary_round, BinarySingleNaN.binary_round, shl_align_fexp. set (mez := shl_align _ _ _); case mez as [mz ez].
  apply bra_equiv.
Qed.
Lemma overflow_NE s : binary_overflow 53 1024 mode_NE s = S754_infinity s.
Proof. reflexivity. Qed.
Lemma rnd64_eq x : rnd64 x = round radix2 (SpecFloat.fexp 53 1024) (round_mode mode_NE) x.
Proof. reflexivity. Qed.

Lemma F2R_0e (z : Z) : F2R (Float radix2 z 0) = IZR z.
Proof. unfold F2R. simpl. apply Rmult_1_r. Qed.

(** a correctly rounded result, or the overflow value *)
Definition rounded (z : pyfloat) (s : bool) (x : R) : Prop :=
  valid_binary 53 1024 z = true /\
  ((Rabs (rnd64 x) < bpow radix2 1024)%R /\ SF2R radix2 z = rnd64 x /\ is_finite_SF z = true /\ sign_SF z = s
   \/ overflows x /\ z = S754_infinity s).
Lemma rounded_of z s x :
  valid_binary 53 1024 z = true /\
  (if Rlt_bool (Rabs (round radix2 (SpecFloat.fexp 53 1024) (round_mode mode_NE) x)) (bpow radix2 1024) then
    SF2R radix2 z = round radix2 (SpecFloat.fexp 53 1024) (round_mode mode_NE) x /\ is_finite_SF z = true /\ sign_SF z = s
  else z = binary_overflow 53 1024 mode_NE s) -> rounded z s x.
Proof.
  intros [V H]. split; [exact V|]. rewrite <- rnd64_eq in H. revert H. case Rlt_bool_spec; intros H1 H.
  - left. split; [exact H1|exact H].
  - right. split; [exact H1|]. rewrite overflow_NE in H. exact H.
Qed.

Lemma ratio_rounded s n d : rounded (float_of_ratio s n d) s ((if s then -1 else 1) * (IZR (Zpos n) / IZR (Zpos d))).
Proof.
  apply rounded_of. unfold float_of_ratio.
  pose proof (Bdiv_correct_aux 53 1024 Hprec Hmax mode_NE s n 0 false d 0) as H. cbv zeta in H.
  unfold fprec, femax. destruct (SFdiv_core_binary 53 1024 (Zpos n) 0 (Zpos d) 0) as [[mz ez] lz].
  rewrite bra_equiv. rewrite xorb_false_r in H. rewrite !F2R_0e in H. simpl cond_Zopp in H.
  replace ((if s then -1 else 1) * (IZR (Z.pos n) / IZR (Z.pos d)))%R with (IZR (cond_Zopp s (Z.pos n)) / IZR (Z.pos d))%R; [exact H|].
  destruct s; unfold cond_Zopp; [rewrite opp_IZR|]; unfold Rdiv; ring.
Qed.

Lemma mul_rounded sx mx ex sy my ey : bounded 53 1024 mx ex = true -> bounded 53 1024 my ey = true ->
  rounded (fmul (S754_finite sx mx ex) (S754_finite sy my ey)) (xorb sx sy)
    (SF2R radix2 (S754_finite sx mx ex) * SF2R radix2 (S754_finite sy my ey)).
Proof.
  intros Hx Hy. apply rounded_of. unfold fmul, SFmul, fprec, femax. rewrite bra_equiv.
  apply (Bmult_correct_aux 53 1024 Hprec Hmax mode_NE sx mx ex Hx sy my ey Hy).
Qed.

Lemma int_rounded z : z <> 0%Z -> rounded (SpecFloat.binary_normalize 53 1024 z 0 false) (Z.ltb z 0) (IZR z).
Proof.
  intros Hz. apply rounded_of. destruct z as [|p|p]; [congruence| |]; unfold SpecFloat.binary_normalize; rewrite br_equiv.
  - pose proof (binary_round_correct 53 1024 Hprec Hmax mode_NE false p 0) as H. cbv zeta in H. rewrite !F2R_0e in H. exact H.
  - pose proof (binary_round_correct 53 1024 Hprec Hmax mode_NE true p 0) as H. cbv zeta in H. rewrite !F2R_0e in H. exact H.
Qed.

Lemma int_truediv_zero a : int_truediv a 0 = Raise ZeroDivisionError.
Proof. destruct a; reflexivity. Qed.
Lemma int_truediv_spec a b : b <> 0%Z ->
  (exists f, int_truediv a b = Ok f /\ float_is f (rnd64 (IZR a / IZR b)) /\ (Rabs (rnd64 (IZR a / IZR b)) < bpow radix2 1024)%R)
  \/ (overflows (IZR a / IZR b) /\ int_truediv a b = Raise OverflowError).
Proof.
  intros Hb. destruct (Z.eq_dec a 0) as [->|Ha].
  { left. exists (S754_zero (b <? 0)%Z). split; [destruct b; [congruence|reflexivity..]|].
    unfold Rdiv. rewrite Rmult_0_l. unfold rnd64. rewrite round_0 by auto with typeclass_instances. split; [repeat split|].
    rewrite Rabs_R0. apply bpow_gt_0. }
  assert (E : int_truediv a b = match float_of_ratio (xorb (a <? 0)%Z (b <? 0)%Z) (Z.to_pos (Z.abs a)) (Z.to_pos (Z.abs b)) with
      | S754_infinity _ => Raise OverflowError | f => Ok f end) by (destruct a, b; (congruence || reflexivity)).
  rewrite E. clear E.
  pose proof (ratio_rounded (xorb (a <? 0)%Z (b <? 0)%Z) (Z.to_pos (Z.abs a)) (Z.to_pos (Z.abs b))) as R.
  rewrite !Z2Pos.id in R by lia.
  replace ((if xorb (a <? 0)%Z (b <? 0)%Z then -1 else 1) * (IZR (Z.abs a) / IZR (Z.abs b)))%R with (IZR a / IZR b)%R in R.
  2:{ assert (IZR b <> 0%R) by (apply IZR_neq; exact Hb). rewrite !abs_IZR.
      destruct (Z.ltb_spec a 0) as [La|La], (Z.ltb_spec b 0) as [Lb|Lb]; cbn [xorb];
      try apply IZR_lt in La; try apply IZR_lt in Lb; try apply IZR_le in La; try apply IZR_le in Lb;
      first [rewrite (Rabs_left (IZR a)) by assumption|rewrite (Rabs_right (IZR a)) by (apply Rle_ge; assumption)];
      first [rewrite (Rabs_left (IZR b)) by assumption|rewrite (Rabs_right (IZR b)) by (apply Rle_ge; assumption)]; field; lra. }
  destruct (float_of_ratio _ _ _) as [s|s| |s m e], R as [V [(H1 & H2 & H3 & H4)|[H1 H2]]]; try discriminate.
  all: try (left; eexists; split; [reflexivity|]; split; [|exact H1]; repeat split; assumption).
  right. auto.
Qed.

(** conversions to integers *)
Lemma floor_dyadic_spec s m e : floor_dyadic s m e = Zfloor (SF2R radix2 (S754_finite s m e)).
Proof.
  unfold floor_dyadic, SF2R, F2R, Fnum, Fexp. assert (cond_neg s (Zpos m) = cond_Zopp s (Zpos m)) as -> by reflexivity.
  set (z := cond_Zopp s (Zpos m)). destruct (Z.leb_spec 0 e) as [H|H].
  - rewrite <- IZR_Zpower by exact H. rewrite <- mult_IZR, Zfloor_IZR. reflexivity.
  - replace e with (- (- e))%Z at 2 by lia. rewrite bpow_opp, <- IZR_Zpower by lia.
    symmetry. apply Zfloor_div. change (Zpower radix2 (-e)) with (2 ^ (- e))%Z. assert (0 < 2 ^ (-e))%Z by (apply Z.pow_pos_nonneg; lia). lia.
Qed.
Lemma py_floor_spec f x : float_is f x -> py_floor f = Ok (Zfloor x).
Proof.
  intros (Hf & _ & <-). destruct f as [s|s| |s m e]; try discriminate; cbn [py_floor]; f_equal.
  - cbn. rewrite (Zfloor_IZR 0). reflexivity.
  - apply floor_dyadic_spec.
Qed.
Lemma SF2R_negb s m e : SF2R radix2 (S754_finite (negb s) m e) = Ropp (SF2R radix2 (S754_finite s m e)).
Proof. unfold SF2R. rewrite <- F2R_Zopp. f_equal. f_equal. destruct s; reflexivity. Qed.
Lemma py_ceil_spec f x : float_is f x -> py_ceil f = Ok (Zceil x).
Proof.
  intros (Hf & _ & <-). destruct f as [s|s| |s m e]; try discriminate; cbn [py_ceil]; f_equal.
  - cbn. rewrite (Zceil_IZR 0). reflexivity.
  - rewrite floor_dyadic_spec, SF2R_negb. reflexivity.
Qed.
Lemma py_int_spec f x : float_is f x -> py_int f = Ok (Ztrunc x).
Proof.
  intros (Hf & _ & <-). destruct f as [s|s| |s m e]; try discriminate; cbn [py_int]; f_equal.
  - cbn. rewrite (Ztrunc_IZR 0). reflexivity.
  - rewrite floor_dyadic_spec. assert (P : (0 <= SF2R radix2 (S754_finite false m e))%R) by (apply F2R_ge_0; cbn; lia).
    destruct s; cbn [cond_neg].
    + change true with (negb false). rewrite SF2R_negb, Ztrunc_opp, Ztrunc_floor by exact P. reflexivity.
    + rewrite Ztrunc_floor by exact P. reflexivity.
Qed.

(** ** rounding facts *)
Lemma rnd64_opp x : rnd64 (- x) = Ropp (rnd64 x).
Proof. apply round_NE_opp. Qed.
Lemma int_format n : (Z.abs n <= 2 ^ 53)%Z -> generic_format radix2 (FLT_exp (-1074) 53) (IZR n).
Proof.
  intros H. destruct (Z.eq_dec (Z.abs n) (2 ^ 53)) as [E|E].
  - assert (G : generic_format radix2 (FLT_exp (-1074) 53) (IZR (2 ^ 53))).
    { change (2 ^ 53)%Z with (Zpower radix2 53). rewrite IZR_Zpower by lia. apply generic_format_bpow. unfold FLT_exp. lia. }
    destruct (Z.abs_spec n) as [[_ A]|[_ A]].
    + rewrite A in E. rewrite E. exact G.
    + replace n with (- (2 ^ 53))%Z by lia. rewrite opp_IZR. apply generic_format_opp, G.
  - apply generic_format_FLT. exists (Float radix2 n 0); [symmetry; apply F2R_0e|cbn; lia|cbn; lia].
Qed.
Lemma rnd64_int n : (Z.abs n <= 2 ^ 53)%Z -> rnd64 (IZR n) = IZR n.
Proof. intros H. apply round_generic; [auto with typeclass_instances|]. apply int_format, H. Qed.
Lemma rnd64_ge n x : (Z.abs n <= 2 ^ 53)%Z -> (IZR n <= x)%R -> (IZR n <= rnd64 x)%R.
Proof. intros H Hx. apply round_ge_generic; [auto with typeclass_instances..|apply int_format, H|exact Hx]. Qed.
Lemma rnd64_le n x : (Z.abs n <= 2 ^ 53)%Z -> (x <= IZR n)%R -> (rnd64 x <= IZR n)%R.
Proof. intros H Hx. apply round_le_generic; [auto with typeclass_instances..|apply int_format, H|exact Hx]. Qed.
Lemma rnd64_err x : (Rabs (rnd64 x - x) <= / 2 * ulp radix2 (FLT_exp (-1074) 53) x)%R.
Proof. apply error_le_half_ulp. auto with typeclass_instances. Qed.
Lemma rnd64_mono x y : (x <= y)%R -> (rnd64 x <= rnd64 y)%R.
Proof. apply round_le; auto with typeclass_instances. Qed.
(** relative error, with the absolute one for tiny numbers *)
Lemma ulp_rel x : (bpow radix2 (-1022) <= Rabs x)%R -> (ulp radix2 (FLT_exp (-1074) 53) x <= Rabs x * bpow radix2 (-52))%R.
Proof. intros H. apply (ulp_FLT_le radix2 (-1074) 53). exact H. Qed.
