(** * L_FloatIO: float encodings *)
From Coq Require Import Reals Lia Lra ZifyBool.
From Flocq Require Import Core BinarySingleNaN.
From Coq Require Import Floats.SpecFloat.
From Verif Require Import M_Py M_Float M_UInt M_Writer M_Reader M_FloatIO S_IO S_Float S_FloatIO L_Bytes L_IO L_Float.
Open Scope Z_scope.

Lemma bounded_iff P E m e : 1 <= P -> (bounded P E m e = true <->
  Zpos m < 2 ^ P /\ (2 ^ (P - 1) <= Zpos m \/ e = 3 - E - P) /\ 3 - E - P <= e <= E - P).
Proof.
  intros HP. unfold bounded, canonical_mantissa. rewrite andb_true_iff, Z.leb_le, <- Zeq_is_eq_bool.
  rewrite Digits.Zpos_digits2_pos. unfold SpecFloat.fexp, SpecFloat.emin.
  set (d := Digits.Zdigits radix2 (Zpos m)).
  pose proof (Digits.Zdigits_correct radix2 (Zpos m)) as [D1 D2]. fold d in D1, D2.
  change (Z.pow (radix_val radix2)) with (Z.pow 2) in *. rewrite Z.abs_eq in * by lia.
  assert (Hd : 0 < d) by (apply Digits.Zdigits_gt_0; lia).
  assert (A : d <= P <-> Zpos m < 2 ^ P).
  { split; intros H.
    - eapply Z.lt_le_trans; [exact D2|]. apply Z.pow_le_mono_r; lia.
    - destruct (Z_le_gt_dec d P) as [|G]; [assumption|]. exfalso. assert (2 ^ P <= 2 ^ (d - 1)) by (apply Z.pow_le_mono_r; lia). lia. }
  assert (B : P <= d <-> 2 ^ (P - 1) <= Zpos m).
  { split; intros H.
    - eapply Z.le_trans; [|exact D1]. apply Z.pow_le_mono_r; lia.
    - destruct (Z_le_gt_dec P d) as [|G]; [assumption|]. exfalso. assert (2 ^ d <= 2 ^ (P - 1)) by (apply Z.pow_le_mono_r; lia). lia. }
  rewrite <- A, <- B. lia.
Qed.

Definition f_P (f : ffmt) := frac_bits f + 1.
Definition f_E (f : ffmt) := 2 ^ (exp_bits f - 1).
Lemma fbounded_iff f m e : bounded (f_P f) (f_E f) m e = true <->
  Zpos m < 2 * 2 ^ frac_bits f /\ (2 ^ frac_bits f <= Zpos m \/ e = f_emin f) /\ f_emin f <= e <= f_emin f + 2 ^ exp_bits f - 3.
Proof. rewrite bounded_iff by (destruct f; cbn; lia). destruct f; cbn; lia. Qed.

Lemma pows f : 0 < 2 ^ frac_bits f /\ 4 < 2 ^ exp_bits f /\ 2 ^ (exp_bits f + frac_bits f) = 2 ^ exp_bits f * 2 ^ frac_bits f /\
  2 ^ (8 * Z.of_nat (fwidth f)) = 2 * (2 ^ exp_bits f * 2 ^ frac_bits f) /\ 0 < 2 ^ (frac_bits f - 1) < 2 ^ frac_bits f.
Proof. destruct f; repeat split; reflexivity. Qed.
Lemma bits_range f x : valid_binary (f_P f) (f_E f) x = true -> 0 <= bits_of f x < 2 ^ (8 * Z.of_nat (fwidth f)).
Proof.
  pose proof (pows f) as (P1 & P2 & P3 & P4 & P5).
  destruct x as [s|s| |s m e]; cbn [valid_binary]; intros V; unfold bits_of; try (apply fbounded_iff in V);
  rewrite P4, ?P3; set (mw := 2 ^ frac_bits f) in *; set (ew := 2 ^ exp_bits f) in *; clearbody mw ew.
  - destruct s; nia.
  - destruct s; nia.
  - nia.
  - case Z.ltb_spec; intros H; destruct s; nia.
Qed.

Lemma of_bits_bits f x : valid_binary (f_P f) (f_E f) x = true -> x <> S754_nan -> of_bits f (bits_of f x) = x.
Proof.
  intros V N.
  assert (K : forall (s : bool) ex fr, 0 <= ex < 2 ^ exp_bits f -> 0 <= fr < 2 ^ frac_bits f ->
    let b := (if s then 2 ^ (exp_bits f + frac_bits f) else 0) + ex * 2 ^ frac_bits f + fr in
    (2 ^ (exp_bits f + frac_bits f) <=? b) = s /\ (b / 2 ^ frac_bits f) mod 2 ^ exp_bits f = ex /\ b mod 2 ^ frac_bits f = fr).
  { intros s ex fr H1 H2 b.
    assert (P1 : 0 < 2 ^ frac_bits f) by (destruct f; reflexivity). assert (P2 : 0 < 2 ^ exp_bits f) by (destruct f; reflexivity).
    assert (Q : 2 ^ (exp_bits f + frac_bits f) = 2 ^ exp_bits f * 2 ^ frac_bits f) by (destruct f; reflexivity).
    assert (B : b = ((if s then 2 ^ exp_bits f else 0) + ex) * 2 ^ frac_bits f + fr) by (unfold b; rewrite Q; destruct s; ring).
    split; [|split].
    - unfold b. rewrite Q. destruct s; [nia|]. nia.
    - rewrite B, Z.div_add_l, (Z.div_small fr), Z.add_0_r by lia.
      destruct s; [|rewrite Z.add_0_l; apply Z.mod_small; lia].
      rewrite Z.add_comm, <- (Z.mul_1_l (2 ^ exp_bits f)) at 1. rewrite Z.mod_add by lia. apply Z.mod_small; lia.
    - rewrite B, Z.add_comm, Z.mod_add by lia. apply Z.mod_small; lia. }
  destruct x as [s|s| |s m e]; cbn [valid_binary] in V; [| |congruence|].
  - specialize (K s 0 0). unfold bits_of, of_bits.
    replace (if s then 2 ^ (exp_bits f + frac_bits f) else 0) with ((if s then 2 ^ (exp_bits f + frac_bits f) else 0) + 0 * 2 ^ frac_bits f + 0) by (destruct s; lia).
    cbv zeta in K. destruct K as (K1 & K2 & K3); [destruct f; cbn; lia|destruct f; cbn; lia|]. rewrite K1, K2, K3. reflexivity.
  - specialize (K s (2 ^ exp_bits f - 1) 0). unfold bits_of, of_bits.
    rewrite <- (Z.add_0_r ((if s then 2 ^ (exp_bits f + frac_bits f) else 0) + (2 ^ exp_bits f - 1) * 2 ^ frac_bits f)).
    cbv zeta in K. destruct K as (K1 & K2 & K3); [destruct f; cbn; lia|destruct f; cbn; lia|]. rewrite K1, K2, K3.
    rewrite Z.eqb_refl. destruct f; reflexivity.
  - apply fbounded_iff in V. unfold bits_of. case Z.ltb_spec; intros H.
    + assert (e = f_emin f) as -> by lia. specialize (K s 0 (Zpos m)). cbv zeta in K.
      rewrite Z.mul_0_l, Z.add_0_r in K. destruct K as (K1 & K2 & K3); [destruct f; cbn; lia|lia|].
      unfold of_bits. rewrite K1, K2, K3. reflexivity.
    + specialize (K s (e - f_emin f + 1) (Zpos m - 2 ^ frac_bits f)). cbv zeta in K.
      destruct K as (K1 & K2 & K3); [lia|lia|]. unfold of_bits. rewrite K1, K2, K3.
      replace (e - f_emin f + 1 =? 0) with false by lia. replace (e - f_emin f + 1 =? 2 ^ exp_bits f - 1) with false by lia.
      replace (Zpos m - 2 ^ frac_bits f + 2 ^ frac_bits f) with (Zpos m) by lia. f_equal. lia.
Qed.

Lemma SF2R_finite s m e : SF2R radix2 (S754_finite s m e) = ((if s then -1 else 1) * (IZR (Zpos m) * bpow radix2 e))%R.
Proof. cbn [SF2R]. unfold F2R. cbn [Fnum Fexp]. destruct s; cbn [cond_Zopp]; [rewrite opp_IZR|]; ring. Qed.

Lemma of_bits_spec f b : 0 <= b < 2 ^ (8 * Z.of_nat (fwidth f)) -> exists (s : bool) ex fr,
  b = (if s then 1 else 0) * 2 ^ (exp_bits f + frac_bits f) + ex * 2 ^ frac_bits f + fr /\
  0 <= ex < 2 ^ exp_bits f /\ 0 <= fr < 2 ^ frac_bits f /\
  (ex = 2 ^ exp_bits f - 1 -> of_bits f b = if fr =? 0 then S754_infinity s else S754_nan) /\
  (ex < 2 ^ exp_bits f - 1 -> sign_SF (of_bits f b) = s /\ is_finite_SF (of_bits f b) = true /\
     valid_binary (f_P f) (f_E f) (of_bits f b) = true /\
     SF2R radix2 (of_bits f b) = ((if s then -1 else 1) * (if ex =? 0 then IZR fr * bpow radix2 (f_emin f)
        else IZR (2 ^ frac_bits f + fr) * bpow radix2 (ex - 1 + f_emin f)))%R) /\
  (of_bits f b <> S754_nan -> bits_of f (of_bits f b) = b).
Proof.
  pose proof (pows f) as (P1 & P2 & P3 & P4 & P5). rewrite P4. intros Hb.
  set (ex := (b / 2 ^ frac_bits f) mod 2 ^ exp_bits f). set (fr := b mod 2 ^ frac_bits f).
  set (s := 2 ^ (exp_bits f + frac_bits f) <=? b).
  assert (Hex : 0 <= ex < 2 ^ exp_bits f) by (apply Z.mod_pos_bound; lia).
  assert (Hfr : 0 <= fr < 2 ^ frac_bits f) by (apply Z.mod_pos_bound; lia).
  assert (Hd : b = (if s then 1 else 0) * 2 ^ (exp_bits f + frac_bits f) + ex * 2 ^ frac_bits f + fr).
  { pose proof (Z.div_mod b (2 ^ frac_bits f) ltac:(lia)) as D1. fold fr in D1.
    pose proof (Z.div_mod (b / 2 ^ frac_bits f) (2 ^ exp_bits f) ltac:(lia)) as D2. fold ex in D2.
    set (q := b / 2 ^ frac_bits f / 2 ^ exp_bits f) in *. rewrite D2 in D1. rewrite P3.
    assert (Q : q = if s then 1 else 0).
    { unfold s. rewrite P3. clearbody q ex fr. clear D2. set (mw := 2 ^ frac_bits f) in *. set (ew := 2 ^ exp_bits f) in *. clearbody mw ew. clear s.
      destruct (Z.leb_spec (ew * mw) b) as [L|L].
      - assert (q < 2) by nia. assert (0 < q) by nia. lia.
      - assert (q < 1) by nia. assert (-1 < q) by nia. lia. }
    rewrite <- Q. lia. }
  exists s, ex, fr. split; [exact Hd|]. split; [exact Hex|]. split; [exact Hfr|].
  assert (U : of_bits f b = if ex =? 0 then match fr with Zpos m => S754_finite s m (f_emin f) | _ => S754_zero s end
    else if ex =? 2 ^ exp_bits f - 1 then (if fr =? 0 then S754_infinity s else S754_nan)
    else match fr + 2 ^ frac_bits f with Zpos m => S754_finite s m (ex - 1 + f_emin f) | _ => S754_nan end) by reflexivity.
  rewrite U. clearbody s ex fr. clear U Hb. split; [|split].
  - intros E. replace (ex =? 0) with false by lia. replace (ex =? 2 ^ exp_bits f - 1) with true by lia. reflexivity.
  - intros E. replace (ex =? 2 ^ exp_bits f - 1) with false by lia. case Z.eqb_spec; intros E0.
    + destruct fr as [|m|m]; [|..|lia].
      * repeat split; try reflexivity. cbn [SF2R]. rewrite Rmult_0_l, Rmult_0_r. reflexivity.
      * repeat split; try reflexivity; [|apply SF2R_finite]. cbn [valid_binary]. apply fbounded_iff. lia.
    + destruct (fr + 2 ^ frac_bits f) as [|m|m] eqn:M; [lia| |lia].
      repeat split; try reflexivity; [|rewrite SF2R_finite, <- M, (Z.add_comm fr); reflexivity]. cbn [valid_binary]. apply fbounded_iff. lia.
  - rewrite Hd, P3. case Z.eqb_spec; intros E0.
    + intros _. destruct fr as [|m|m]; [|..|lia]; unfold bits_of; rewrite ?P3.
      * destruct s; lia.
      * replace (Zpos m <? 2 ^ frac_bits f) with true by lia. destruct s; lia.
    + case Z.eqb_spec; intros E1.
      * case Z.eqb_spec; intros E2; [|congruence]. intros _. unfold bits_of. rewrite P3, <- E1. destruct s; lia.
      * intros _. destruct (fr + 2 ^ frac_bits f) as [|m|m] eqn:M; [lia| |lia]. unfold bits_of. rewrite P3.
        replace (Zpos m <? 2 ^ frac_bits f) with false by lia. destruct s; nia.
Qed.

Local Instance Hprec53 : FLX.Prec_gt_0 53 := eq_refl _.
Local Instance Hmax53 : Prec_lt_emax 53 1024 := eq_refl _.
Local Instance Hprec24 : FLX.Prec_gt_0 24 := eq_refl _.
Local Instance Hmax24 : Prec_lt_emax 24 128 := eq_refl _.

Lemma SF_inj P E (HP : FLX.Prec_gt_0 P) (HE : Prec_lt_emax P E) a b :
  valid_binary P E a = true -> valid_binary P E b = true -> is_finite_SF a = true -> is_finite_SF b = true ->
  SF2R radix2 a = SF2R radix2 b -> sign_SF a = sign_SF b -> a = b.
Proof.
  intros Va Vb Fa Fb R S. rewrite <- (B2SF_SF2B P E a Va), <- (B2SF_SF2B P E b Vb). f_equal. apply B2R_Bsign_inj.
  - rewrite is_finite_SF2B. exact Fa.
  - rewrite is_finite_SF2B. exact Fb.
  - rewrite !B2R_SF2B. exact R.
  - rewrite !Bsign_SF2B. exact S.
Qed.

Lemma F2R_SF2R s m e : F2R (Float radix2 (cond_Zopp s (Zpos m)) e) = SF2R radix2 (S754_finite s m e).
Proof. reflexivity. Qed.

Lemma round24 s m e : let z := SpecFloat.binary_round 24 128 s m e in let x := SF2R radix2 (S754_finite s m e) in
  valid_binary 24 128 z = true /\
  ((Rabs (rnd32 x) < bpow radix2 128)%R /\ SF2R radix2 z = rnd32 x /\ is_finite_SF z = true /\ sign_SF z = s
   \/ (bpow radix2 128 <= Rabs (rnd32 x))%R /\ z = S754_infinity s).
Proof.
  cbv zeta. rewrite br_equiv. pose proof (binary_round_correct 24 128 Hprec24 Hmax24 mode_NE s m e) as [V H]. cbv zeta in V, H.
  split; [exact V|]. rewrite F2R_SF2R in H.
  change (round radix2 (SpecFloat.fexp 24 128) (round_mode mode_NE) (SF2R radix2 (S754_finite s m e))) with (rnd32 (SF2R radix2 (S754_finite s m e))) in H.
  revert H. case Rlt_bool_spec; intros H1 H; [left; split; [exact H1|exact H]|right; split; [exact H1|]]. rewrite H. reflexivity.
Qed.

Lemma single_generic m e s : bounded 24 128 m e = true -> generic_format radix2 (FLT_exp (-149) 24) (SF2R radix2 (S754_finite s m e)).
Proof.
  intros B. apply (bounded_iff 24 128) in B; [|lia]. rewrite <- F2R_SF2R. apply generic_format_FLT.
  exists (Float radix2 (cond_Zopp s (Zpos m)) e); [reflexivity| |cbn [Fexp]; lia].
  cbn [Fnum]. rewrite abs_cond_Zopp. change (radix2 ^ 24) with (2 ^ 24). lia.
Qed.
Lemma rnd32_single m e s : bounded 24 128 m e = true -> rnd32 (SF2R radix2 (S754_finite s m e)) = SF2R radix2 (S754_finite s m e).
Proof. intros B. apply round_generic; [typeclasses eauto|]. apply single_generic, B. Qed.

(** a single-precision number as a double: the same real number and sign *)
Lemma widen_spec y : valid_binary 24 128 y = true -> is_finite_SF y = true ->
  float_is (widen y) (SF2R radix2 y) /\ sign_SF (widen y) = sign_SF y.
Proof.
  intros V F. destruct y as [s|s| |s m e]; try discriminate F.
  - split; [|reflexivity]. repeat split.
  - cbn [widen]. unfold fprec, femax. rewrite br_equiv.
    pose proof (binary_round_correct 53 1024 Hprec53 Hmax53 mode_NE s m e) as [V2 H]. cbv zeta in V2, H. rewrite F2R_SF2R in H.
    assert (G : round radix2 (SpecFloat.fexp 53 1024) (round_mode mode_NE) (SF2R radix2 (S754_finite s m e)) = SF2R radix2 (S754_finite s m e)).
    { apply round_generic; [typeclasses eauto|]. change (SpecFloat.fexp 53 1024) with (FLT_exp (-1074) 53).
      cbn [valid_binary] in V. apply (bounded_iff 24 128) in V; [|lia]. rewrite <- F2R_SF2R. apply generic_format_FLT.
      exists (Float radix2 (cond_Zopp s (Zpos m)) e); [reflexivity| |cbn [Fexp]; lia].
      cbn [Fnum]. rewrite abs_cond_Zopp. change (radix2 ^ 53) with (2 ^ 53). change (2 ^ 24) with 16777216 in V. lia. }
    rewrite G in H. rewrite Rlt_bool_true in H.
    + destruct H as (H1 & H2 & H3). repeat split; assumption.
    + eapply Rlt_trans; [|apply (bpow_lt radix2 128 1024); lia]. cbn [valid_binary] in V.
      pose proof (abs_B2R_lt_emax 24 128 (SF2B (S754_finite s m e) V)) as K. rewrite B2R_SF2B in K. exact K.
Qed.
