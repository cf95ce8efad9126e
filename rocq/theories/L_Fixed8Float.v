(** * L_Fixed8Float: the float operations of M_Fixed8Float compute correctly rounded results (via Flocq) *)
From Coq Require Import Reals Lia Lra.
From Flocq Require Import Core Operations Relative Plus_error.
From Flocq Require Import BinarySingleNaN.
From Coq Require Import Floats.SpecFloat.
From Verif Require Import M_Py M_Float S_Float L_Float L_FloatIO M_Fixed8Float.

Local Instance Hprec : FLX.Prec_gt_0 53 := eq_refl _.
Local Instance Hmax : Prec_lt_emax 53 1024 := eq_refl _.

Definition fits (x : R) : Prop := (Rabs (rnd64 x) < bpow radix2 1024)%R.

Lemma rnd64_0 : rnd64 0 = 0%R.
Proof. apply round_0; auto with typeclass_instances. Qed.
Lemma zero_is s : float_is (S754_zero s) 0.
Proof. repeat split. Qed.

Lemma float_format f x : float_is f x -> generic_format radix2 (FLT_exp (-1074) 53) x.
Proof.
  intros (Hf & V & <-). destruct f as [s|s| |s m e]; try discriminate; [apply generic_format_0|].
  pose proof (generic_format_B2R 53 1024 (B754_finite s m e V)) as G. exact G.
Qed.
Lemma float_rnd f x : float_is f x -> rnd64 x = x.
Proof. intros H. apply round_generic; [auto with typeclass_instances|]. apply (float_format f x H). Qed.
Lemma float_lt f x : float_is f x -> (Rabs x < bpow radix2 1024)%R.
Proof.
  intros (Hf & V & <-). destruct f as [s|s| |s m e]; try discriminate; [cbn [SF2R]; rewrite Rabs_R0; apply bpow_gt_0|].
  exact (abs_B2R_lt_emax 53 1024 (B754_finite s m e V)).
Qed.
Lemma float_fits f x : float_is f x -> fits x.
Proof. intros H. unfold fits. rewrite (float_rnd f x H). apply (float_lt f x H). Qed.

Lemma rounded_is z s x : rounded z s x -> fits x -> float_is z (rnd64 x).
Proof.
  intros [V [(A & B & C & _)|[O _]]] F; [repeat split; assumption|]. unfold overflows in O. unfold fits in F. lra.
Qed.

Lemma normalize_is z e s : fits (F2R (Float radix2 z e)) -> float_is (SpecFloat.binary_normalize fprec femax z e s) (rnd64 (F2R (Float radix2 z e))).
Proof.
  intros F. destruct z as [|p|p]; unfold SpecFloat.binary_normalize, fprec, femax.
  - rewrite F2R_0, rnd64_0. apply zero_is.
  - rewrite br_equiv. apply (rounded_is _ false); [|exact F]. apply rounded_of.
    exact (binary_round_correct 53 1024 Hprec Hmax mode_NE false p e).
  - rewrite br_equiv. apply (rounded_is _ true); [|exact F]. apply rounded_of.
    exact (binary_round_correct 53 1024 Hprec Hmax mode_NE true p e).
Qed.

Lemma fadd_is f g x y : float_is f x -> float_is g y -> fits (x + y) -> float_is (fadd f g) (rnd64 (x + y)).
Proof.
  intros A B F. pose proof A as (Af & Av & Ax). pose proof B as (Bf & Bv & By).
  destruct f as [s|s| |s m e]; try discriminate; destruct g as [s'|s'| |s' m' e']; try discriminate; unfold fadd, SFadd.
  - assert (x = 0%R) as -> by (rewrite <- Ax; reflexivity). assert (y = 0%R) as -> by (rewrite <- By; reflexivity).
    rewrite Rplus_0_r, rnd64_0. destruct (Bool.eqb s s'); apply zero_is.
  - assert (x = 0%R) as -> by (rewrite <- Ax; reflexivity). rewrite Rplus_0_l, (float_rnd _ _ B). exact B.
  - assert (y = 0%R) as -> by (rewrite <- By; reflexivity). rewrite Rplus_0_r, (float_rnd _ _ A). exact A.
  - assert (E : (x + y)%R = F2R (Float radix2 (cond_Zopp s (Zpos (fst (shl_align m e (Z.min e e')))) + cond_Zopp s' (Zpos (fst (shl_align m' e' (Z.min e e'))))) (Z.min e e'))).
    { rewrite <- Ax, <- By. symmetry. apply (Fplus_naive_correct s m e s' m' e' (Z.min e e')); lia. }
    rewrite E in *. apply normalize_is, F.
Qed.
Definition fopp (f : pyfloat) : pyfloat := SFopp f.
Lemma fopp_is f x : float_is f x -> float_is (SFopp f) (- x).
Proof.
  intros (Hf & V & <-). destruct f as [s|s| |s m e]; try discriminate.
  - cbn [SFopp]. cbn. rewrite Ropp_0. apply zero_is.
  - split; [reflexivity|]. split; [exact V|]. cbn [SFopp]. apply SF2R_negb.
Qed.
Lemma fsub_opp f g : is_finite_SF f = true -> is_finite_SF g = true -> fsub f g = fadd f (SFopp g).
Proof.
  destruct f as [s|s| |s m e], g as [s'|s'| |s' m' e']; intros F G; try discriminate; unfold fsub, fadd, SFsub, SFadd, SFopp; try reflexivity.
  f_equal. unfold Z.sub. f_equal. destruct s'; reflexivity.
Qed.
Lemma fsub_is f g x y : float_is f x -> float_is g y -> fits (x - y) -> float_is (fsub f g) (rnd64 (x - y)).
Proof.
  intros A B F. rewrite fsub_opp by (apply A || apply B). apply fadd_is; [exact A|apply fopp_is, B|exact F].
Qed.
Lemma fmul_is f g x y : float_is f x -> float_is g y -> fits (x * y) -> float_is (fmul f g) (rnd64 (x * y)).
Proof.
  intros A B F. pose proof A as (Af & Av & Ax). pose proof B as (Bf & Bv & By).
  destruct f as [s|s| |s m e]; try discriminate; destruct g as [s'|s'| |s' m' e']; try discriminate.
  1,2: assert (x = 0%R) as -> by (rewrite <- Ax; reflexivity); rewrite Rmult_0_l, rnd64_0; apply zero_is.
  - assert (y = 0%R) as -> by (rewrite <- By; reflexivity). rewrite Rmult_0_r, rnd64_0. apply zero_is.
  - rewrite <- Ax, <- By in *. apply (rounded_is _ (xorb s s')); [|exact F]. apply mul_rounded; assumption.
Qed.
Lemma fdiv_is f g x y : float_is f x -> float_is g y -> y <> 0%R -> fits (x / y) -> float_is (fdiv f g) (rnd64 (x / y)).
Proof.
  intros A B N F. pose proof A as (Af & Av & Ax). pose proof B as (Bf & Bv & By).
  destruct g as [s'|s'| |s' m' e']; try discriminate; [exfalso; apply N; rewrite <- By; reflexivity|].
  destruct f as [s|s| |s m e]; try discriminate.
  - assert (x = 0%R) as -> by (rewrite <- Ax; reflexivity). unfold Rdiv. rewrite Rmult_0_l, rnd64_0. apply zero_is.
  - rewrite <- Ax, <- By in *. apply (rounded_is _ (xorb s s')); [|exact F]. apply rounded_of. unfold fdiv, SFdiv, fprec, femax.
    pose proof (Bdiv_correct_aux 53 1024 Hprec Hmax mode_NE s m e s' m' e') as H. cbv zeta in H.
    destruct (SFdiv_core_binary 53 1024 (Zpos m) e (Zpos m') e') as [[mz ez] lz]. rewrite bra_equiv. exact H.
Qed.

(** ** tests on finite floats *)
Lemma fis0_is f x : float_is f x -> (fis0 f = true <-> x = 0%R).
Proof.
  intros (Hf & V & <-). destruct f as [s|s| |s m e]; try discriminate; cbn [fis0 ftruthy negb]; unfold fis0; cbn [ftruthy negb]; split; intros E; try discriminate; try reflexivity.
  exfalso. cbn [SF2R] in E. apply eq_0_F2R in E. destruct s; discriminate.
Qed.
Lemma SF2R_sign (s : bool) m e : if s then (SF2R radix2 (S754_finite s m e) < 0)%R else (0 < SF2R radix2 (S754_finite s m e))%R.
Proof. destruct s; cbn [SF2R]; [apply F2R_lt_0|apply F2R_gt_0]; cbn; lia. Qed.
Lemma fneg_is f x : float_is f x -> (fneg f = true <-> (x < 0)%R).
Proof.
  intros (Hf & V & <-). destruct f as [s|s| |s m e]; try discriminate; unfold fneg, SFltb; cbn [SFcompare].
  - split; [discriminate|]. cbn. lra.
  - pose proof (SF2R_sign s m e) as H. destruct s; split; intros E; try reflexivity; try discriminate; try exact H. lra.
Qed.
Lemma fcompare_is f g x y : float_is f x -> float_is g y -> SFcompare f g = Some (Rcompare x y).
Proof.
  intros (Af & Av & Ax) (Bf & Bv & By).
  pose proof (Bcompare_correct 53 1024 (SF2B f Av) (SF2B g Bv)) as H. rewrite !is_finite_SF2B, !B2R_SF2B in H. specialize (H Af Bf).
  rewrite Ax, By in H. rewrite <- H. unfold Bcompare. rewrite !B2SF_SF2B. reflexivity.
Qed.

(** ** remainders *)
Lemma F2R_shift z e k : (k <= e)%Z -> F2R (Float radix2 z e) = F2R (Float radix2 (z * 2 ^ (e - k)) k).
Proof.
  intros H. rewrite (F2R_change_exp radix2 k z e H). reflexivity.
Qed.
Lemma SF2R_F2R s m e : SF2R radix2 (S754_finite s m e) = F2R (Float radix2 (cond_neg s (Zpos m)) e).
Proof. reflexivity. Qed.
Lemma Ztrunc_quot a b : b <> 0%Z -> Ztrunc (IZR a / IZR b) = Z.quot a b.
Proof. intros H. apply Ztrunc_div, H. Qed.
Lemma F2R_ratio a b k : b <> 0%Z -> (F2R (Float radix2 a k) / F2R (Float radix2 b k) = IZR a / IZR b)%R.
Proof.
  intros H. unfold F2R. cbn [Fnum Fexp]. pose proof (bpow_gt_0 radix2 k). assert (IZR b <> 0%R) by (apply IZR_neq; exact H). field. split; lra.
Qed.
Lemma cond_neg_quot s s' a b : (0 <= a)%Z -> (0 < b)%Z -> (cond_neg s a - cond_neg s' b * Z.quot (cond_neg s a) (cond_neg s' b) = cond_neg s (a mod b))%Z.
Proof.
  intros A B. pose proof (Z.quot_rem' (cond_neg s a) (cond_neg s' b)) as Q.
  assert (R : Z.rem (cond_neg s a) (cond_neg s' b) = cond_neg s (a mod b)).
  { destruct s, s'; cbn [cond_neg]; rewrite ?Z.rem_opp_l, ?Z.rem_opp_r, ?Z.rem_mod_nonneg by lia; reflexivity. }
  lia.
Qed.
Lemma fmod_is f g x y : float_is f x -> float_is g y -> y <> 0%R -> float_is (fmod f g) (x - y * IZR (Ztrunc (x / y))).
Proof.
  intros A B N. pose proof A as (Af & Av & Ax). pose proof B as (Bf & Bv & By).
  destruct g as [s'|s'| |s' m' e']; try discriminate; [exfalso; apply N; rewrite <- By; reflexivity|].
  destruct f as [s|s| |s m e]; try discriminate.
  - assert (x = 0%R) as -> by (rewrite <- Ax; reflexivity). cbn [fmod]. unfold Rdiv. rewrite Rmult_0_l, (Ztrunc_IZR 0), Rmult_0_r, Rminus_0_r. apply zero_is.
  - cbn [fmod]. set (k := Z.min e e'). set (a := (Zpos m * 2 ^ (e - k))%Z). set (b := (Zpos m' * 2 ^ (e' - k))%Z).
    assert (Ka : (0 < a)%Z) by (apply Z.mul_pos_pos; [lia|apply Z.pow_pos_nonneg; lia]).
    assert (Kb : (0 < b)%Z) by (apply Z.mul_pos_pos; [lia|apply Z.pow_pos_nonneg; lia]).
    assert (Ex : x = F2R (Float radix2 (cond_neg s a) k)).
    { rewrite <- Ax, SF2R_F2R, (F2R_shift _ e k) by lia. do 2 f_equal. destruct s; cbn [cond_neg]; unfold a; lia. }
    assert (Ey : y = F2R (Float radix2 (cond_neg s' b) k)).
    { rewrite <- By, SF2R_F2R, (F2R_shift _ e' k) by lia. do 2 f_equal. destruct s'; cbn [cond_neg]; unfold b; lia. }
    assert (Nb : cond_neg s' b <> 0%Z) by (destruct s'; cbn [cond_neg]; lia).
    assert (V : (x - y * IZR (Ztrunc (x / y)))%R = F2R (Float radix2 (cond_neg s (a mod b)) k)).
    { rewrite Ex, Ey, (F2R_ratio _ _ _ Nb), (Ztrunc_quot _ _ Nb), <- (cond_neg_quot s s' a b) by lia. unfold F2R. cbn [Fnum Fexp].
      rewrite minus_IZR, mult_IZR. ring. }
    rewrite V. destruct (Z.eqb_spec (a mod b) 0) as [E|E].
    { rewrite E. assert (cond_neg s 0 = 0%Z) as -> by (destruct s; reflexivity). rewrite F2R_0. apply zero_is. }
    pose proof (Z.mod_pos_bound a b Kb) as Rb. pose proof (Z.mod_le a b ltac:(lia) Kb) as Ra.
    apply (bounded_iff 53 1024) in Av; [|lia]. apply (bounded_iff 53 1024) in Bv; [|lia].
    assert (Rm : (a mod b < 2 ^ 53)%Z).
    { destruct (Z.le_ge_cases e e') as [L|L].
      - assert (Ea : a = Zpos m) by (unfold a; replace (e - k)%Z with 0%Z by lia; lia). lia.
      - assert (Eb : b = Zpos m') by (unfold b; replace (e' - k)%Z with 0%Z by lia; lia). lia. }
    assert (G : generic_format radix2 (FLT_exp (-1074) 53) (F2R (Float radix2 (cond_neg s (a mod b)) k))).
    { apply generic_format_FLT. exists (Float radix2 (cond_neg s (a mod b)) k); [reflexivity| |]; cbn [Fnum Fexp].
      - destruct s; cbn [cond_neg]; rewrite ?Z.abs_opp, Z.abs_eq by lia; exact Rm.
      - lia. }
    assert (Rn : rnd64 (F2R (Float radix2 (cond_neg s (a mod b)) k)) = F2R (Float radix2 (cond_neg s (a mod b)) k)) by (apply round_generic; [auto with typeclass_instances|exact G]).
    rewrite <- Rn. apply normalize_is. unfold fits. rewrite Rn. apply Rle_lt_trans with (Rabs x); [|apply (float_lt _ _ A)].
    rewrite Ex, <- !F2R_Zabs. apply F2R_le. destruct s; cbn [cond_neg]; rewrite ?Z.abs_opp, !Z.abs_eq by lia; lia.
Qed.

Lemma floor_trunc_same t : (0 < t)%R -> Zfloor t = Ztrunc t.
Proof. intros H. symmetry. apply Ztrunc_floor. lra. Qed.
Lemma floor_trunc_neg t : (t < 0)%R -> t <> IZR (Ztrunc t) -> Zfloor t = (Ztrunc t - 1)%Z.
Proof.
  intros H N. rewrite Ztrunc_ceil in * by lra. destruct (Req_dec (IZR (Zfloor t)) t) as [E|E].
  - exfalso. apply N. rewrite <- E at 2. rewrite Zceil_IZR. symmetry. exact E.
  - rewrite (Zceil_floor_neq t E). lia.
Qed.
Lemma trunc_sign t : ((0 <= t -> 0 <= t - IZR (Ztrunc t)) /\ (t <= 0 -> t - IZR (Ztrunc t) <= 0))%R.
Proof.
  split; intros H.
  - rewrite Ztrunc_floor by exact H. pose proof (Zfloor_lb t). lra.
  - rewrite Ztrunc_ceil by exact H. pose proof (Zceil_ub t). lra.
Qed.
(** the float remainder is the exact remainder of floor division, rounded *)
Lemma frem_is f g x y : float_is f x -> float_is g y -> y <> 0%R -> float_is (frem f g) (rnd64 (x - y * IZR (Zfloor (x / y)))).
Proof.
  intros A B N. pose proof (fmod_is f g x y A B N) as M. unfold frem. set (t := (x / y)%R) in *. set (md := fmod f g) in *.
  assert (X : x = (y * t)%R) by (unfold t; field; exact N). set (r := (x - y * IZR (Ztrunc t))%R) in *.
  assert (Rr : r = (y * (t - IZR (Ztrunc t)))%R) by (unfold r; rewrite X at 1; ring).
  destruct (fis0 md) eqn:Z0.
  - apply (fis0_is _ _ M) in Z0. assert (T : t = IZR (Ztrunc t)) by (rewrite Z0 in Rr; symmetry in Rr; apply Rmult_integral in Rr; destruct Rr; [contradiction|lra]).
    assert (F : Zfloor t = Ztrunc t) by (rewrite T at 1; apply Zfloor_IZR). rewrite F. fold r. rewrite Z0, rnd64_0. apply zero_is.
  - assert (R0 : r <> 0%R) by (intros E; apply (fis0_is _ _ M) in E; congruence).
    assert (T : t <> IZR (Ztrunc t)) by (intros E; apply R0; rewrite Rr; rewrite <- E; ring).
    assert (T0 : t <> 0%R) by (intros E; apply T; rewrite E, (Ztrunc_IZR 0); reflexivity).
    destruct (trunc_sign t) as [P Q].
    destruct (xorb (fneg g) (fneg md)) eqn:X0.
    + assert (S : (t < 0)%R).
      { destruct (Rlt_or_le t 0) as [L|L]; [exact L|exfalso]. specialize (P L). assert (0 < t - IZR (Ztrunc t))%R by lra.
        destruct (fneg g) eqn:G, (fneg md) eqn:D; try discriminate.
        - apply (fneg_is _ _ B) in G. assert (r < 0)%R by (rewrite Rr; apply Rmult_neg_pos || nra; assumption). apply (fneg_is _ _ M) in H0. congruence.
        - apply (fneg_is _ _ M) in D. assert (y < 0)%R by nra. apply (fneg_is _ _ B) in H0. congruence. }
      rewrite (floor_trunc_neg t S T). replace (x - y * IZR (Ztrunc t - 1))%R with (r + y)%R by (unfold r; rewrite minus_IZR; ring).
      apply fadd_is; [exact M|exact B|]. unfold fits.
      assert (L : (Rabs (r + y) <= Rabs y)%R).
      { replace (r + y)%R with (y * (t - IZR (Ztrunc t) + 1))%R by (rewrite Rr; ring). rewrite Rabs_mult. rewrite <- (Rmult_1_r (Rabs y)) at 2.
        apply Rmult_le_compat_l; [apply Rabs_pos|]. assert (Q' := Q ltac:(lra)). rewrite Ztrunc_ceil in * by lra.
        assert (IZR (Zceil t) < t + 1)%R by (unfold Zceil; rewrite opp_IZR; pose proof (Zfloor_ub (- t)); lra). rewrite Rabs_pos_eq by lra. lra. }
      apply Rle_lt_trans with (Rabs y); [|apply (float_lt _ _ B)]. rewrite <- (float_rnd _ _ B) at 2.
      unfold rnd64. rewrite <- !round_NE_abs by auto with typeclass_instances. apply round_le; auto with typeclass_instances.
    + assert (S : (0 < t)%R).
      { destruct (Rlt_or_le 0 t) as [L|L]; [exact L|exfalso]. specialize (Q L). assert (t - IZR (Ztrunc t) < 0)%R by lra.
        destruct (fneg g) eqn:G, (fneg md) eqn:D; try discriminate.
        - apply (fneg_is _ _ B) in G. apply (fneg_is _ _ M) in D. nra.
        - assert (~ (r < 0)%R) by (intros E; apply (fneg_is _ _ M) in E; congruence). assert (~ (y < 0)%R) by (intros E; apply (fneg_is _ _ B) in E; congruence). nra. }
      rewrite (floor_trunc_same t S). fold r. rewrite (float_rnd _ _ M). exact M.
Qed.

(** ** floor and floor division *)
Lemma small_int_fits n : (Z.abs n <= 2 ^ 53)%Z -> fits (IZR n).
Proof.
  intros H. unfold fits. rewrite (rnd64_int n H), <- abs_IZR. apply Rle_lt_trans with (IZR (2 ^ 53)); [apply IZR_le, H|].
  change (2 ^ 53)%Z with (Zpower radix2 53). rewrite IZR_Zpower by lia. apply bpow_lt. lia.
Qed.
Lemma ffloor_is f x : float_is f x -> float_is (ffloor f) (IZR (Zfloor x)).
Proof.
  intros A. pose proof A as (Af & Av & Ax). destruct f as [s|s| |s m e]; try discriminate.
  - assert (x = 0%R) as -> by (rewrite <- Ax; reflexivity). rewrite (Zfloor_IZR 0). exact A.
  - cbn [ffloor]. destruct (Z.leb_spec 0 e) as [L|L].
    + assert (I : x = IZR (cond_neg s (Zpos m) * 2 ^ e)).
      { rewrite <- Ax, SF2R_F2R. unfold F2R. cbn [Fnum Fexp]. rewrite mult_IZR. f_equal. symmetry. apply (IZR_Zpower radix2), L. }
      rewrite I at 1. rewrite Zfloor_IZR, <- I. exact A.
    + rewrite floor_dyadic_spec, Ax. apply (bounded_iff 53 1024) in Av; [|lia].
      assert (X : (Rabs x < IZR (2 ^ 53))%R).
      { rewrite <- Ax, SF2R_F2R, <- F2R_Zabs. assert (Ea : Z.abs (cond_neg s (Zpos m)) = Zpos m) by (destruct s; reflexivity). rewrite Ea. unfold F2R. cbn [Fnum Fexp].
        assert (bpow radix2 e <= 1)%R by (change 1%R with (bpow radix2 0); apply bpow_le; lia). pose proof (bpow_gt_0 radix2 e).
        assert (0 < IZR (Zpos m))%R by (apply IZR_lt; lia). assert (IZR (Zpos m) < IZR (2 ^ 53))%R by (apply IZR_lt; lia). nra. }
      assert (B : (Z.abs (Zfloor x) <= 2 ^ 53)%Z).
      { apply Rabs_lt_inv in X. rewrite <- opp_IZR in X. apply Z.abs_le. split; apply le_IZR.
        - apply IZR_le. apply Zfloor_lub. lra.
        - pose proof (Zfloor_lb x). lra. }
      set (n := Zfloor x) in *. assert (G : float_is (SpecFloat.binary_normalize fprec femax n 0 s) (IZR n)).
      { pose proof (normalize_is n 0 s) as H. rewrite F2R_0e, (rnd64_int n B) in H. apply H, small_int_fits, B. }
      destruct n as [|p|p]; [apply zero_is|exact G|exact G].
Qed.
Lemma fone_is : float_is fone 1.
Proof. split; [reflexivity|]. split; [reflexivity|]. change fone with (S754_finite false 4503599627370496 (-52)). rewrite SF2R_F2R. unfold F2R. cbn [Fnum Fexp cond_neg].
  change 4503599627370496%Z with (Zpower radix2 52). rewrite IZR_Zpower by lia. rewrite <- bpow_plus. reflexivity. Qed.
Lemma fhalf_is : float_is fhalf (/ 2).
Proof. split; [reflexivity|]. split; [reflexivity|]. change fhalf with (S754_finite false 4503599627370496 (-53)). rewrite SF2R_F2R. unfold F2R. cbn [Fnum Fexp cond_neg].
  change 4503599627370496%Z with (Zpower radix2 52). rewrite IZR_Zpower by lia. rewrite <- bpow_plus. change (52 + -53)%Z with (-1)%Z. change (bpow radix2 (-1)) with (/ IZR 2)%R. reflexivity. Qed.
Lemma fsub_int f g a b : float_is f (IZR a) -> float_is g (IZR b) -> (Z.abs (a - b) <= 2 ^ 53)%Z -> float_is (fsub f g) (IZR (a - b)).
Proof.
  intros A B H. rewrite <- (rnd64_int _ H), minus_IZR. apply fsub_is; try assumption. rewrite <- minus_IZR. apply small_int_fits, H.
Qed.
Lemma ffloordiv_int f g a b : float_is f (IZR a) -> float_is g (IZR b) -> (Z.abs a <= 2 ^ 53)%Z -> (Z.abs b <= 2 ^ 53)%Z -> b <> 0%Z ->
  float_is (ffloordiv f g) (IZR (a / b)).
Proof.
  intros A B Ha Hb N. assert (NR : IZR b <> 0%R) by (apply IZR_neq, N).
  pose proof (fmod_is f g _ _ A B NR) as M. rewrite (Ztrunc_quot a b N) in M. rewrite <- mult_IZR, <- minus_IZR in M.
  replace (a - b * Z.quot a b)%Z with (Z.rem a b) in M by (pose proof (Z.quot_rem' a b); lia).
  unfold ffloordiv. set (md := fmod f g) in *. set (q := Z.quot a b) in *.
  assert (Qb : (Z.abs (b * q) <= Z.abs a)%Z).
  { pose proof (Z.quot_abs a b N) as QA. fold q in QA. rewrite Z.abs_mul, <- QA. pose proof (Z.mul_quot_le (Z.abs a) (Z.abs b)) as ML. lia. }
  assert (Qr : (a = b * q + Z.rem a b)%Z) by apply Z.quot_rem'.
  assert (S1 : float_is (fsub f md) (IZR (b * q))).
  { replace (b * q)%Z with (a - Z.rem a b)%Z in * by lia. apply fsub_int; [exact A|exact M|lia]. }
  assert (Qq : (Z.abs q <= 2 ^ 53)%Z) by (rewrite Z.abs_mul in Qb; nia).
  assert (D0 : float_is (fdiv (fsub f md) g) (IZR q)).
  { assert (E : (IZR (b * q) / IZR b = IZR q)%R) by (rewrite mult_IZR; field; exact NR).
    pose proof (fdiv_is _ _ _ _ S1 B NR) as H. rewrite E, (rnd64_int q Qq) in H. apply H, small_int_fits, Qq. }
  set (div := fdiv (fsub f md) g) in *.
  assert (D1 : float_is (if negb (fis0 md) && xorb (fneg g) (fneg md) then fsub div fone else div) (IZR (a / b))).
  { destruct (fis0 md) eqn:Z0; cbn [negb andb].
    - apply (fis0_is _ _ M) in Z0. apply (eq_IZR _ 0) in Z0. assert (a / b = q)%Z as ->; [|exact D0].
      rewrite Z0, Z.add_0_r in Qr. rewrite Qr, Z.mul_comm, Z.div_mul by exact N. reflexivity.
    - assert (R0 : Z.rem a b <> 0%Z) by (intros E; rewrite E in M; apply (fis0_is _ _ M) in Z0 || (assert (fis0 md = true) by (apply (fis0_is _ _ M); reflexivity); congruence)).
      pose proof (Z.rem_bound_abs a b N) as Rb.
      assert (Gb : fneg g = true <-> (b < 0)%Z) by (rewrite (fneg_is _ _ B); split; [apply lt_IZR|apply IZR_lt]).
      assert (Gm : fneg md = true <-> (Z.rem a b < 0)%Z) by (rewrite (fneg_is _ _ M); split; [apply lt_IZR|apply IZR_lt]).
      assert (B2 : (2 <= Z.abs b)%Z) by lia. assert (Q2 : (Z.abs q <= 2 ^ 52)%Z) by (rewrite Z.abs_mul in Qb; nia).
      destruct (xorb (fneg g) (fneg md)) eqn:X.
      + assert (a / b = q - 1)%Z as ->.
        { symmetry. apply (Z.div_unique a b (q - 1) (Z.rem a b + b)); [|lia].
          destruct (fneg g), (fneg md); try discriminate.
          - pose proof (proj1 Gb eq_refl). assert (~ (Z.rem a b < 0)%Z) by (intros E; apply Gm in E; discriminate). lia.
          - pose proof (proj1 Gm eq_refl). assert (~ (b < 0)%Z) by (intros E; apply Gb in E; discriminate). lia. }
        apply fsub_int; [exact D0|exact fone_is|lia].
      + assert (a / b = q)%Z as ->; [|exact D0].
        symmetry. apply (Z.div_unique a b q (Z.rem a b)); [|lia]. destruct (fneg g), (fneg md); try discriminate.
        * pose proof (proj1 Gb eq_refl). pose proof (proj1 Gm eq_refl). lia.
        * assert (~ (Z.rem a b < 0)%Z) by (intros E; apply Gm in E; discriminate). assert (~ (b < 0)%Z) by (intros E; apply Gb in E; discriminate). lia. }
  clear D0. cbv zeta. match type of D1 with float_is ?t _ => set (d := t) in * end. clearbody d. destruct (fis0 d) eqn:Z0.
  - apply (fis0_is _ _ D1) in Z0. rewrite Z0. apply zero_is.
  - pose proof (ffloor_is _ _ D1) as F. rewrite Zfloor_IZR in F.
    pose proof (fsub_int _ _ _ _ D1 F ltac:(lia)) as S. rewrite Z.sub_diag in S. unfold SFltb. rewrite (fcompare_is _ _ _ _ fhalf_is S).
    rewrite Rcompare_Gt by lra. exact F.
Qed.

(** ** conversion of ints *)
Lemma float_of_int_is z : ~ overflows (IZR z) -> exists f, float_of_int z = Ok f /\ float_is f (rnd64 (IZR z)).
Proof.
  intros O. assert (F : fits (IZR z)) by (unfold fits, overflows in *; lra).
  pose proof (normalize_is z 0 false) as H. rewrite F2R_0e in H. specialize (H F). unfold float_of_int. fold fprec femax.
  exists (SpecFloat.binary_normalize fprec femax z 0 false). split; [|exact H]. destruct (SpecFloat.binary_normalize fprec femax z 0 false); try reflexivity. destruct H as (H & _). discriminate.
Qed.
Lemma float_of_int_overflow z : overflows (IZR z) -> float_of_int z = Raise OverflowError.
Proof.
  intros O. destruct (Z.eq_dec z 0) as [->|N]; [unfold overflows in O; rewrite rnd64_0, Rabs_R0 in O; pose proof (bpow_gt_0 radix2 1024); lra|].
  destruct (int_rounded z N) as [_ [(H & _)|[_ H]]]; [unfold overflows in O; lra|]. unfold float_of_int, fprec, femax. rewrite H. reflexivity.
Qed.
Lemma cmp_int_float_is z f x : float_is f x -> cmp_int_float z f = Some (Rcompare (IZR z) x).
Proof.
  intros (Af & Av & Ax). destruct f as [s|s| |s m e]; try discriminate; cbn [cmp_int_float].
  - assert (x = 0%R) as -> by (rewrite <- Ax; reflexivity). rewrite Rcompare_IZR. reflexivity.
  - rewrite <- Ax, SF2R_F2R. unfold F2R. cbn [Fnum Fexp]. f_equal. destruct (Z.leb_spec 0 e) as [L|L].
    + rewrite <- (IZR_Zpower radix2) by exact L. rewrite <- mult_IZR, Rcompare_IZR. reflexivity.
    + rewrite <- (Rcompare_mult_r (bpow radix2 (- e)) (IZR z)) by apply bpow_gt_0. rewrite Rmult_assoc, <- bpow_plus, Z.add_opp_diag_r. cbn [bpow]. rewrite Rmult_1_r.
      rewrite <- (IZR_Zpower radix2) by lia. rewrite <- mult_IZR, Rcompare_IZR. reflexivity.
Qed.

(** ** floor division of any floats *)
Lemma eps53 : (/ 2 * bpow radix2 (-53 + 1) = bpow radix2 (-53))%R.
Proof. change (/ 2)%R with (bpow radix2 (-1)). rewrite <- bpow_plus. reflexivity. Qed.
(** a sum or difference of floats has a small relative error *)
Lemma rnd64_sum f g x y : float_is f x -> float_is g y -> exists d, (Rabs d <= bpow radix2 (-53))%R /\ rnd64 (x + y) = ((x + y) * (1 + d))%R.
Proof.
  intros A B. destruct (FLT_plus_error_N_ex radix2 (-1074) 53 (fun z => negb (Z.even z)) x y (float_format _ _ A) (float_format _ _ B)) as (d & H & E).
  exists d. split; [|exact E]. eapply Rle_trans; [exact H|]. pose proof (u_ro_pos radix2 53) as P. assert (EU : u_ro radix2 53 = bpow radix2 (-53)) by exact eps53. rewrite EU in *. set (u := bpow radix2 (-53)) in *.
  apply (Rmult_le_reg_r (1 + u)); [lra|]. unfold Rdiv. rewrite Rmult_assoc, Rinv_l by lra. nra.
Qed.
Lemma rnd64_rel x : (/ 2 <= Rabs x)%R -> exists d, (Rabs d <= bpow radix2 (-53))%R /\ rnd64 x = (x * (1 + d))%R.
Proof.
  intros H. destruct (relative_error_N_FLT_ex radix2 (-1074) 53 eq_refl (fun z => negb (Z.even z)) x) as (d & D & E).
  - apply Rle_trans with (2 := H). change (/ 2)%R with (bpow radix2 (-1)). apply bpow_le. lia.
  - exists d. split; [|exact E]. eapply Rle_trans; [exact D|]. apply Req_le. exact eps53.
Qed.
Lemma fits_le x : (Rabs x <= IZR (2 ^ 53))%R -> fits x.
Proof.
  intros H. pose proof (small_int_fits (2 ^ 53) ltac:(lia)) as S. unfold fits in *. rewrite (rnd64_int (2 ^ 53)) in S by lia. rewrite Rabs_pos_eq in S by (apply IZR_le; lia).
  eapply Rle_lt_trans; [|exact S]. apply Rabs_le. apply Rabs_le_inv in H. split; [rewrite <- opp_IZR; apply rnd64_ge; [lia|rewrite opp_IZR; lra]|apply rnd64_le; [lia|lra]].
Qed.
Lemma fadd_int f g a b : float_is f (IZR a) -> float_is g (IZR b) -> (Z.abs (a + b) <= 2 ^ 53)%Z -> float_is (fadd f g) (IZR (a + b)).
Proof.
  intros A B H. rewrite <- (rnd64_int _ H), plus_IZR. apply fadd_is; try assumption. rewrite <- plus_IZR. apply small_int_fits, H.
Qed.
Lemma near_zero_int q : (Rabs (IZR q) < 1)%R -> q = 0%Z.
Proof. intros H. apply Rabs_lt_inv in H. destruct H as [A B]. apply (lt_IZR (-1)) in A. apply (lt_IZR _ 1) in B. lia. Qed.

(** the end of _float_div_mod: from a float near a whole number q to q *)
Lemma finish_is d w q (z : bool) : float_is d w -> (Rabs (w - IZR q) <= 5 / 16)%R -> (Z.abs q <= 2 ^ 52)%Z ->
  float_is (if fis0 d then S754_zero z else if SFltb fhalf (fsub d (ffloor d)) then fadd (ffloor d) fone else ffloor d) (IZR q).
Proof.
  intros D W Q. apply Rabs_le_inv in W. destruct (fis0 d) eqn:Z0.
  - apply (fis0_is _ _ D) in Z0. assert (q = 0%Z) as ->; [|apply zero_is]. apply near_zero_int. apply Rabs_lt. lra.
  - pose proof (ffloor_is _ _ D) as F. destruct (Rle_or_lt (IZR q) w) as [L|L].
    + assert (E : Zfloor w = q) by (apply Zfloor_imp; rewrite plus_IZR; lra). rewrite E in F.
      assert (Ft : fits (w - IZR q)) by (apply fits_le; apply Rle_trans with (1%R); [apply Rabs_le; lra|apply (IZR_le 1); lia]).
      pose proof (fsub_is _ _ _ _ D F Ft) as S. unfold SFltb. rewrite (fcompare_is _ _ _ _ fhalf_is S).
      assert (H : (rnd64 (w - IZR q) <= / 2)%R).
      { apply round_le_generic; [auto with typeclass_instances..|apply (float_format _ _ fhalf_is)|lra]. }
      destruct (Rcompare_spec (/ 2) (rnd64 (w - IZR q))) as [C|C|C]; [lra|exact F|exact F].
    + assert (E : Zfloor w = (q - 1)%Z) by (apply Zfloor_imp; rewrite plus_IZR, minus_IZR; lra). rewrite E in F.
      assert (Ft : fits (w - IZR (q - 1))) by (rewrite minus_IZR; apply fits_le; apply Rle_trans with (1%R); [apply Rabs_le; lra|apply (IZR_le 1); lia]).
      pose proof (fsub_is _ _ _ _ D F Ft) as S. unfold SFltb. rewrite (fcompare_is _ _ _ _ fhalf_is S).
      assert (H : (11 / 16 <= rnd64 (w - IZR (q - 1)))%R).
      { apply round_ge_generic; [auto with typeclass_instances..| |rewrite minus_IZR; lra]. apply generic_format_FLT. exists (Float radix2 11 (-4)); [|cbn; lia|cbn; lia].
        unfold F2R. cbn [Fnum Fexp]. change (bpow radix2 (-4)) with (/ 16)%R. reflexivity. }
      rewrite Rcompare_Lt by lra. replace q with (q - 1 + 1)%Z by lia. apply fadd_int; [exact F|exact fone_is|lia].
Qed.
Lemma small_eps_mul t d : (Rabs t <= IZR (2 ^ 51))%R -> (Rabs d <= bpow radix2 (-53))%R -> (Rabs (t * d) <= / 4)%R.
Proof.
  intros A B. rewrite Rabs_mult. replace (/ 4)%R with (IZR (2 ^ 51) * bpow radix2 (-53))%R.
  - apply Rmult_le_compat; try apply Rabs_pos; assumption.
  - change (2 ^ 51)%Z with (Zpower radix2 51). rewrite IZR_Zpower by lia. rewrite <- bpow_plus. reflexivity.
Qed.
Lemma small_eps_mul' t d : (Rabs t <= IZR (2 ^ 49))%R -> (Rabs d <= bpow radix2 (-53))%R -> (Rabs (t * d) <= / 16)%R.
Proof.
  intros A B. rewrite Rabs_mult. replace (/ 16)%R with (IZR (2 ^ 49) * bpow radix2 (-53))%R.
  - apply Rmult_le_compat; try apply Rabs_pos; assumption.
  - change (2 ^ 49)%Z with (Zpower radix2 49). rewrite IZR_Zpower by lia. rewrite <- bpow_plus. reflexivity.
Qed.
(** floor division of floats is exact as long as the quotient is moderate *)
Lemma ffloordiv_is f g x y : float_is f x -> float_is g y -> y <> 0%R -> (Rabs (x / y) <= IZR (2 ^ 48))%R -> float_is (ffloordiv f g) (IZR (Zfloor (x / y))).
Proof.
  intros A B N Hq. pose proof (fmod_is f g x y A B N) as M. set (t := (x / y)%R) in *. set (T := Ztrunc t) in *.
  assert (X : x = (y * t)%R) by (unfold t; field; exact N). unfold ffloordiv. set (md := fmod f g) in *. set (r := (x - y * IZR T)%R) in *.
  assert (HT : (Z.abs T <= 2 ^ 48)%Z).
  { apply le_IZR. rewrite abs_IZR. eapply Rle_trans; [|exact Hq]. unfold T. apply Rabs_le_inv in Hq. destruct (Rle_or_lt 0 t) as [L|L].
    - rewrite Ztrunc_floor by exact L. pose proof (Zfloor_lb t). assert (0 <= Zfloor t)%Z by (apply Zfloor_lub; exact L). apply IZR_le in H0. rewrite !Rabs_pos_eq by lra. lra.
    - rewrite Ztrunc_ceil by lra. pose proof (Zceil_ub t). assert (Zceil t <= 0)%Z by (apply Zceil_glb; lra). apply IZR_le in H0. rewrite Rabs_left1 by lra. rewrite Rabs_left by exact L. lra. }
  assert (HTR : (Rabs (IZR T) <= IZR (2 ^ 48))%R) by (rewrite <- abs_IZR; apply IZR_le, HT).
  (* x - md *)
  assert (S1 : exists d, (Rabs d <= bpow radix2 (-53))%R /\ float_is (fsub f md) (y * IZR T * (1 + d))%R).
  { destruct (rnd64_sum f (SFopp md) x (- r) A (fopp_is _ _ M)) as (d & D & E). replace (x + - r)%R with (y * IZR T)%R in E by (unfold r; ring).
    exists d. split; [exact D|]. rewrite <- E. replace (y * IZR T)%R with (x - r)%R by (unfold r; ring). apply fsub_is; [exact A|exact M|]. unfold fits.
    replace (x - r)%R with (y * IZR T)%R by (unfold r; ring).
    assert (L : (Rabs (y * IZR T) <= Rabs x)%R).
    { rewrite X, !Rabs_mult. apply Rmult_le_compat_l; [apply Rabs_pos|]. unfold T. destruct (Rle_or_lt 0 t) as [L|L].
      - rewrite Ztrunc_floor by exact L. pose proof (Zfloor_lb t). assert (0 <= Zfloor t)%Z by (apply Zfloor_lub; exact L). apply IZR_le in H0. rewrite !Rabs_pos_eq by lra. lra.
      - rewrite Ztrunc_ceil by lra. pose proof (Zceil_ub t). assert (Zceil t <= 0)%Z by (apply Zceil_glb; lra). apply IZR_le in H0. rewrite Rabs_left1 by lra. rewrite Rabs_left by exact L. lra. }
    apply Rle_lt_trans with (Rabs x); [|apply (float_lt _ _ A)]. rewrite <- (float_rnd _ _ A).
    unfold rnd64. rewrite <- !round_NE_abs by auto with typeclass_instances. apply round_le; auto with typeclass_instances. }
  destruct S1 as (d1 & D1 & S1).
  assert (T1 := small_eps_mul' (IZR T) d1 ltac:(eapply Rle_trans; [exact HTR|apply IZR_le; lia]) D1).
  assert (S2 : exists w, float_is (fdiv (fsub f md) g) w /\ (Rabs (w - IZR T) <= / 8)%R).
  { destruct (Z.eq_dec T 0) as [E|E].
    - exists 0%R. rewrite E in *. assert (Z1 : float_is (fsub f md) 0) by (replace 0%R with (y * 0 * (1 + d1))%R by ring; exact S1). split.
      + pose proof (fdiv_is _ _ _ _ Z1 B N) as H. unfold Rdiv in H. rewrite Rmult_0_l, rnd64_0 in H. apply H. unfold fits. rewrite rnd64_0, Rabs_R0. apply bpow_gt_0.
      + rewrite Rminus_0_r, Rabs_R0. lra.
    - set (v := (IZR T * (1 + d1))%R). assert (EV : (y * IZR T * (1 + d1) / y = v)%R) by (unfold v; field; exact N).
      assert (Td : (v - IZR T = IZR T * d1)%R) by (unfold v; ring). apply Rabs_le_inv in T1.
      assert (T1' : (1 <= Rabs (IZR T))%R) by (rewrite <- abs_IZR; apply IZR_le; lia).
      assert (V1 : (/ 2 <= Rabs v)%R).
      { replace v with (IZR T - - (IZR T * d1))%R by lra. pose proof (Rabs_triang_inv (IZR T) (- (IZR T * d1))) as TI. rewrite Rabs_Ropp in TI. assert (Rabs (IZR T * d1) <= / 16)%R by (apply Rabs_le; lra). lra. }
      assert (V2 : (Rabs v <= IZR (2 ^ 49))%R).
      { apply Rabs_le_inv in HTR. apply Rabs_le. assert (IZR (2 ^ 49) = 2 * IZR (2 ^ 48))%R by (rewrite <- mult_IZR; reflexivity). assert (1 <= IZR (2 ^ 48))%R by (apply IZR_le; lia). lra. }
      destruct (rnd64_rel v V1) as (d2 & D2 & E2). exists (rnd64 v). split.
      + rewrite <- EV. apply fdiv_is; [exact S1|exact B|exact N|]. rewrite EV. apply fits_le. eapply Rle_trans; [exact V2|apply IZR_le; lia].
      + pose proof (small_eps_mul' v d2 V2 D2) as T2. apply Rabs_le_inv in T2. rewrite E2. apply Rabs_le. replace (v * (1 + d2) - IZR T)%R with (v * d2 + (v - IZR T))%R by ring. lra. }
  destruct S2 as (w & S2 & W). set (div := fdiv (fsub f md) g) in *. cbv zeta.
  (* the correction *)
  assert (S3 : exists w', float_is (if negb (fis0 md) && xorb (fneg g) (fneg md) then fsub div fone else div) w' /\ (Rabs (w' - IZR (Zfloor t)) <= 5 / 16)%R /\ (Z.abs (Zfloor t) <= 2 ^ 52)%Z).
  { assert (Rr : r = (y * (t - IZR T))%R) by (unfold r; rewrite X at 1; ring). destruct (trunc_sign t) as [P Q]. fold T in P, Q.
    assert (Same : Zfloor t = T -> exists w', float_is div w' /\ (Rabs (w' - IZR (Zfloor t)) <= 5 / 16)%R /\ (Z.abs (Zfloor t) <= 2 ^ 52)%Z).
    { intros ->. exists w. split; [exact S2|]. split; [lra|lia]. }
    destruct (fis0 md) eqn:Z0; cbn [negb andb].
    - apply (fis0_is _ _ M) in Z0. apply Same. assert (E : t = IZR T) by (rewrite Z0 in Rr; symmetry in Rr; apply Rmult_integral in Rr; destruct Rr; [contradiction|lra]).
      rewrite E. apply Zfloor_IZR.
    - assert (R0 : r <> 0%R) by (intros E; apply (fis0_is _ _ M) in E; congruence).
      assert (TN : t <> IZR T) by (intros E; apply R0; rewrite Rr, <- E; ring).
      destruct (xorb (fneg g) (fneg md)) eqn:X0.
      + assert (L : (t < 0)%R).
        { destruct (Rlt_or_le t 0) as [L|L]; [exact L|exfalso]. specialize (P L). assert (0 < t - IZR T)%R by lra.
          destruct (fneg g) eqn:G, (fneg md) eqn:D; try discriminate.
          - apply (fneg_is _ _ B) in G. assert (r < 0)%R by (rewrite Rr; nra). apply (fneg_is _ _ M) in H0. congruence.
          - apply (fneg_is _ _ M) in D. assert (y < 0)%R by nra. apply (fneg_is _ _ B) in H0. congruence. }
        assert (F : Zfloor t = (T - 1)%Z) by (apply (floor_trunc_neg t L TN)). rewrite F.
        apply Rabs_le_inv in W. apply Rabs_le_inv in HTR.
        assert (WB : (Rabs (w - 1) <= IZR (2 ^ 49))%R).
        { apply Rabs_le. assert (IZR (2 ^ 49) = 2 * IZR (2 ^ 48))%R by (rewrite <- mult_IZR; reflexivity). assert (2 <= IZR (2 ^ 48))%R by (apply IZR_le; lia). lra. }
        exists (rnd64 (w - 1)). split; [apply fsub_is; [exact S2|exact fone_is|apply fits_le; eapply Rle_trans; [exact WB|apply IZR_le; lia]]|]. split; [|lia].
        destruct (rnd64_sum div (SFopp fone) w (- (1)) S2 (fopp_is _ _ fone_is)) as (d3 & D3 & E3). change (w + - (1))%R with (w - 1)%R in E3.
        pose proof (small_eps_mul' (w - 1) d3 WB D3) as T3. apply Rabs_le_inv in T3. rewrite E3, minus_IZR. apply Rabs_le.
        replace ((w - 1) * (1 + d3) - (IZR T - 1))%R with ((w - 1) * d3 + (w - IZR T))%R by ring. lra.
      + apply Same. destruct (Rle_or_lt 0 t) as [L|L]; [symmetry; apply Ztrunc_floor, L|exfalso]. specialize (Q ltac:(lra)). assert (t - IZR T < 0)%R by lra.
        destruct (fneg g) eqn:G, (fneg md) eqn:D; try discriminate.
        * apply (fneg_is _ _ B) in G. apply (fneg_is _ _ M) in D. nra.
        * assert (~ (r < 0)%R) by (intros E; apply (fneg_is _ _ M) in E; congruence). assert (~ (y < 0)%R) by (intros E; apply (fneg_is _ _ B) in E; congruence). nra. }
  destruct S3 as (w' & S3 & W' & Q'). match type of S3 with float_is ?u _ => set (d := u) in * end. exact (finish_is d w' (Zfloor t) _ S3 W' Q').
Qed.
