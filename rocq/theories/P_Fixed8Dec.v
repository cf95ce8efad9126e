(** * P_Fixed8Dec: C124, Fixed8 objects that hold a Decimal *)
From Coq Require Import Reals Lia Lra ZifyBool.
From Flocq Require Import Core.
From Verif Require Import M_Py M_Float M_Fixed8 M_Fixed8Heap M_Writer M_WriterArgs M_Fixed8Dec S_Fixed8Dec.
From Verif Require Import S_IO L_Fixed8b L_Fixed8Float.

Local Instance Hprec28 : FLX.Prec_gt_0 28 := eq_refl _.
Local Notation "10^^ k" := (bpow ten k) (at level 5, k at level 5).

(** values of representations *)
Lemma signed_value d : IZR (signed_coef d) = ((if d_sign d then -1 else 1) * IZR (d_coef d))%R.
Proof. unfold signed_coef, cond_neg. destruct (d_sign d); rewrite ?opp_IZR; lra. Qed.
Lemma of_signed_is z e : dec_is (of_signed z e) (IZR z * 10^^e).
Proof.
  unfold dec_is, of_signed. cbn [d_sign d_coef d_exp]. split; [lia|]. f_equal.
  destruct (Z.ltb_spec z 0); [rewrite Z.abs_neq, opp_IZR by lia|rewrite Z.abs_eq by lia]; lra.
Qed.
Lemma pow_bpow k : (0 <= k)%Z -> IZR (10 ^ k) = 10^^k.
Proof. intros H. apply (IZR_Zpower ten k H). Qed.
Lemma over_value d x e : dec_is d x -> (e <= d_exp d)%Z -> x = (IZR (over e d) * 10^^e)%R.
Proof.
  intros [_ ->] H. unfold over. rewrite mult_IZR, signed_value, pow_bpow by lia.
  replace (d_exp d) with (d_exp d - e + e)%Z at 1 by lia. rewrite bpow_plus. ring.
Qed.
Lemma as_dec_is a x : dnum_is a x -> dec_is (as_dec a) x.
Proof. destruct a; cbn [dnum_is as_dec]; [|tauto]. intros ->. pose proof (of_signed_is z 0) as H. change (10^^0) with 1%R in H. rewrite Rmult_1_r in H. exact H. Qed.

(** rounding *)
Lemma nearest_ratio n k : (0 <= k)%Z -> ZnearestE (IZR n / IZR (10 ^ k)) = round_half_even n k.
Proof.
  intros Hk. unfold round_half_even. assert (P : (0 < 10 ^ k)%Z) by (apply Z.pow_pos_nonneg; lia).
  pose proof (Z.div_mod n (10 ^ k) ltac:(lia)) as E. pose proof (Z.mod_pos_bound n (10 ^ k) P) as B.
  pose proof (Zfloor_div n (10 ^ k) ltac:(lia)) as F.
  set (q := (n / 10 ^ k)%Z) in *. set (r := (n mod 10 ^ k)%Z) in *. set (p := (10 ^ k)%Z) in *. clearbody q r p.
  unfold Znearest. rewrite F. assert (PR : (0 < IZR p)%R) by (apply IZR_lt; exact P).
  assert (X : (IZR n / IZR p = IZR q + IZR r / IZR p)%R) by (rewrite E, plus_IZR, mult_IZR; field; lra).
  assert (Y : (IZR n / IZR p - IZR q = IZR r / IZR p)%R) by (rewrite X; ring). rewrite Y.
  assert (C : (0 < r)%Z -> Zceil (IZR n / IZR p) = (q + 1)%Z).
  { intros Hr. rewrite Zceil_floor_neq; rewrite F; [reflexivity|]. intros H. rewrite <- H in Y. replace (IZR q - IZR q)%R with 0%R in Y by ring.
    assert (0 < IZR r / IZR p)%R by (apply Rdiv_lt_0_compat; [apply IZR_lt; exact Hr|exact PR]). lra. }
  destruct (Z.ltb_spec (2 * r) p) as [L|L].
  { rewrite Rcompare_Lt; [reflexivity|]. apply Rmult_lt_reg_r with (IZR p); [exact PR|]. unfold Rdiv. rewrite Rmult_assoc, Rinv_l, Rmult_1_r by lra.
    apply IZR_lt in L. rewrite mult_IZR in L. lra. }
  destruct (Z.ltb_spec p (2 * r)) as [G|G].
  { rewrite Rcompare_Gt; [apply C; lia|]. apply Rmult_lt_reg_r with (IZR p); [exact PR|]. unfold Rdiv. rewrite Rmult_assoc, Rinv_l, Rmult_1_r by lra.
    apply IZR_lt in G. rewrite mult_IZR in G. lra. }
  rewrite Rcompare_Eq; [rewrite (C ltac:(lia)); destruct (Z.even q); reflexivity|].
  apply Rmult_eq_reg_r with (IZR p); [|lra]. unfold Rdiv. rewrite Rmult_assoc, Rinv_l, Rmult_1_r by lra.
  assert (H : (2 * r = p)%Z) by lia. apply (f_equal IZR) in H. rewrite mult_IZR in H. lra.
Qed.
Lemma mag_number c e : (0 < c)%Z -> mag ten (IZR c * 10^^e) = (dec_digits c + e)%Z :> Z.
Proof.
  intros Hc. destruct (dec_digits_spec c ltac:(lia)) as (H1 & H2 & [H3|H3]); [lia|].
  apply mag_unique. rewrite Rabs_pos_eq by (apply Rmult_le_pos; [apply IZR_le; lia|apply bpow_ge_0]).
  replace (dec_digits c + e - 1)%Z with ((dec_digits c - 1) + e)%Z by lia. rewrite (bpow_plus ten (dec_digits c - 1) e), (bpow_plus ten (dec_digits c) e). split.
  - apply Rmult_le_compat_r; [apply bpow_ge_0|]. rewrite <- pow_bpow by lia. apply IZR_le, H3.
  - apply Rmult_lt_compat_r; [apply bpow_gt_0|]. rewrite <- pow_bpow by lia. apply IZR_lt, H2.
Qed.
Lemma rnd28_scaled x (d : Z) : mag ten x = d :> Z -> rnd28 x = (IZR (ZnearestE (x * 10^^(28 - d))) * 10^^(d - 28))%R.
Proof.
  intros H. unfold rnd28, round, F2R, scaled_mantissa, cexp, FLX_exp. rewrite H. cbn [Fnum Fexp]. replace (- (d - 28))%Z with (28 - d)%Z by lia. reflexivity.
Qed.
Lemma digits_format c e : (0 <= c)%Z -> (dec_digits c <= 28)%Z -> rnd28 (IZR c * 10^^e) = (IZR c * 10^^e)%R.
Proof.
  intros Hc Hd. apply round_generic; [apply valid_rnd_N|]. apply (generic_format_F2R ten (FLX_exp 28) c e). intros N.
  unfold cexp, F2R. cbn [Fnum Fexp]. rewrite mag_number by lia. unfold FLX_exp. lia.
Qed.
Lemma fix_pos s c e : (0 <= c)%Z -> let d := dec_fix (mkDec s c e) in
  (0 <= d_coef d)%Z /\ d_sign d = s /\ (IZR (d_coef d) * 10^^(d_exp d) = rnd28 (IZR c * 10^^e))%R.
Proof.
  intros Hc. unfold dec_fix. cbn [d_coef d_sign d_exp]. set (k := (dec_digits c - 28)%Z).
  destruct (Z.leb_spec k 0) as [L|L]. { cbn [d_coef d_sign d_exp]. rewrite digits_format by (unfold k in L; lia). auto. }
  assert (Pc : (0 < c)%Z). { destruct (Z.eq_dec c 0) as [->|]; [|lia]. unfold k in L. change (dec_digits 0) with 1%Z in L. lia. }
  assert (V : rnd28 (IZR c * 10^^e) = (IZR (round_half_even c k) * 10^^(e + k))%R).
  { rewrite (rnd28_scaled _ _ (mag_number c e Pc)), Rmult_assoc, <- bpow_plus.
    replace (e + (28 - (dec_digits c + e)))%Z with (- k)%Z by (unfold k; lia). rewrite bpow_opp, <- pow_bpow by lia.
    change (IZR c * / IZR (10 ^ k))%R with (IZR c / IZR (10 ^ k))%R. rewrite nearest_ratio by lia. do 2 f_equal. unfold k. lia. }
  pose proof (round_half_even_nonneg c k Hc ltac:(lia)) as N.
  destruct (Z.ltb_spec 28 (dec_digits (round_half_even c k))) as [G|G]; cbn [d_coef d_sign d_exp]; [|rewrite V; auto].
  assert (c < 10 ^ 28 * 10 ^ k)%Z as U.
  { destruct (dec_digits_spec c Hc) as (_ & U & _). rewrite <- Z.pow_add_r by lia. replace (28 + k)%Z with (dec_digits c) by (unfold k; lia). exact U. }
  assert (W : (round_half_even c k <= 10 ^ 28)%Z).
  { unfold round_half_even. assert (P : (0 < 10 ^ k)%Z) by (apply Z.pow_pos_nonneg; lia).
    assert (c / 10 ^ k < 10 ^ 28)%Z by (apply Z.div_lt_upper_bound; [exact P|rewrite Z.mul_comm; exact U]).
    destruct (_ <? _)%Z; [lia|]. destruct (_ <? _)%Z; [lia|]. destruct (Z.even _); lia. }
  assert (round_half_even c k = 10 ^ 28)%Z as Eq.
  { destruct (Z.le_gt_cases (10 ^ 28) (round_half_even c k)); [lia|]. pose proof (dec_digits_le (round_half_even c k) 28 ltac:(lia) ltac:(lia)). lia. }
  rewrite V, Eq. split; [vm_compute; congruence|]. split; [reflexivity|]. change (10 ^ 28 / 10)%Z with (10 ^ 27)%Z.
  rewrite !pow_bpow by lia. rewrite <- !bpow_plus. f_equal. lia.
Qed.
Lemma rnd28_opp x : rnd28 (- x) = (- rnd28 x)%R.
Proof. apply round_NE_opp. Qed.
Lemma fix_is z e : dec_is (dec_fix (of_signed z e)) (rnd28 (IZR z * 10^^e)).
Proof.
  unfold of_signed. destruct (fix_pos (z <? 0)%Z (Z.abs z) e ltac:(lia)) as (A & B & C). split; [exact A|]. rewrite B, Rmult_assoc, C.
  destruct (Z.ltb_spec z 0).
  - rewrite Z.abs_neq by lia. rewrite opp_IZR, Ropp_mult_distr_l_reverse, rnd28_opp. ring.
  - rewrite Z.abs_eq by lia. ring.
Qed.
Lemma check_number c e N : (0 < c)%Z -> (10^^N <= IZR c * 10^^e)%R <-> (N <= dec_digits c - 1 + e)%Z.
Proof.
  intros Hc. destruct (dec_digits_spec c ltac:(lia)) as (H1 & H2 & [H3|H3]); [lia|]. split; intros H.
  - destruct (Z.le_gt_cases N (dec_digits c - 1 + e)) as [L|L]; [exact L|]. exfalso.
    assert (IZR c * 10^^e < 10^^(dec_digits c + e))%R.
    { rewrite bpow_plus. apply Rmult_lt_compat_r; [apply bpow_gt_0|]. rewrite <- pow_bpow by lia. apply IZR_lt, H2. }
    assert (10^^(dec_digits c + e) <= 10^^N)%R by (apply bpow_le; lia). lra.
  - apply Rle_trans with (10^^(dec_digits c - 1 + e)); [apply bpow_le, H|]. rewrite bpow_plus. apply Rmult_le_compat_r; [apply bpow_ge_0|].
    rewrite <- pow_bpow by lia. apply IZR_le, H3.
Qed.
Lemma check_is d x : dec_is d x -> (~ too_large x /\ dec_check d = Ok d) \/ (too_large x /\ dec_check d = Raise DecimalOverflow).
Proof.
  intros [H ->]. unfold dec_check, too_large. remember 1000000%Z as N eqn:EN. replace (999999 <? dec_digits (d_coef d) - 1 + d_exp d)%Z with (N <=? dec_digits (d_coef d) - 1 + d_exp d)%Z by lia. clear EN.
  assert (A : Rabs ((if d_sign d then -1 else 1) * IZR (d_coef d) * 10^^(d_exp d)) = (IZR (d_coef d) * 10^^(d_exp d))%R).
  { rewrite Rmult_assoc, Rabs_mult, (Rabs_pos_eq (IZR (d_coef d) * _)) by (apply Rmult_le_pos; [apply IZR_le, H|apply bpow_ge_0]).
    destruct (d_sign d); [replace (-1)%R with (- (1))%R by ring; rewrite Rabs_Ropp|]; rewrite Rabs_R1; ring. }
  rewrite A. destruct (Z.eqb_spec (d_coef d) 0) as [E|E]; cbn [negb andb].
  - left. split; [|reflexivity]. rewrite E, Rmult_0_l. intros C. pose proof (bpow_gt_0 ten N). lra.
  - rewrite check_number by lia. destruct (Z.leb_spec N (dec_digits (d_coef d) - 1 + d_exp d)); [right|left]; split; (reflexivity || lia).
Qed.
Lemma finish_is z e : let x := rnd28 (IZR z * 10^^e) in
  (~ too_large x /\ exists d, dec_finish z e = Ok d /\ dec_is d x) \/ (too_large x /\ dec_finish z e = Raise DecimalOverflow).
Proof.
  cbv zeta. pose proof (fix_is z e) as F. unfold dec_finish. destruct (check_is _ _ F) as [[A B]|[A B]]; [left|right]; split; [exact A| |exact A|exact B].
  exists (dec_fix (of_signed z e)). auto.
Qed.
Lemma finish_computes z e x : x = (IZR z * 10^^e)%R -> computes (rmap DDec (dec_finish z e)) x.
Proof.
  intros ->. destruct (finish_is z e) as [[A (d & B & C)]|[A B]]; [left|right]; split; [exact A| |exact A|rewrite B; reflexivity].
  exists d. rewrite B. auto.
Qed.
(** int() *)
Lemma int_of_dec_is d x : dec_is d x -> int_of_dec d = Ztrunc x.
Proof.
  intros [H ->]. unfold int_of_dec.
  assert (E : (if (0 <=? d_exp d)%Z then d_coef d * 10 ^ d_exp d else d_coef d / 10 ^ (- d_exp d))%Z = Ztrunc (IZR (d_coef d) * 10^^(d_exp d))).
  { destruct (Z.leb_spec 0 (d_exp d)).
    - rewrite <- pow_bpow by lia. rewrite <- mult_IZR, Ztrunc_IZR. reflexivity.
    - replace (d_exp d) with (- - d_exp d)%Z at 2 by lia. rewrite bpow_opp, <- pow_bpow by lia.
      assert (P : (0 < 10 ^ (- d_exp d))%Z) by (apply Z.pow_pos_nonneg; lia).
      change (IZR (d_coef d) * / IZR (10 ^ - d_exp d))%R with (IZR (d_coef d) / IZR (10 ^ - d_exp d))%R. rewrite Ztrunc_quot by lia. symmetry. apply Z.quot_div_nonneg; lia. }
  rewrite E. destruct (d_sign d); cbn [cond_neg].
  - replace (-1 * IZR (d_coef d) * 10^^(d_exp d))%R with (- (IZR (d_coef d) * 10^^(d_exp d)))%R by ring. rewrite Ztrunc_opp. reflexivity.
  - f_equal. ring.
Qed.
(** the last digit of the quotient *)
Lemma same_side w i k : (1 <= k)%Z -> (IZR (i * (5 * 10 ^ (k - 1))) < w < IZR ((i + 1) * (5 * 10 ^ (k - 1))))%R ->
  ZnearestE (w * 10^^(- k)) = ((i + 1) / 2)%Z.
Proof.
  intros Hk H. set (h := (5 * 10 ^ (k - 1))%Z) in *. assert (P : (0 < h)%Z) by (unfold h; assert (0 < 10 ^ (k - 1))%Z by (apply Z.pow_pos_nonneg; lia); lia).
  assert (E : (10 ^ k = 2 * h)%Z) by (unfold h; replace k with (k - 1 + 1)%Z at 1 by lia; rewrite Z.pow_add_r by lia; change (10 ^ 1)%Z with 10%Z; ring).
  clearbody h. rewrite bpow_opp, <- pow_bpow by lia. rewrite E, mult_IZR. assert (PR : (0 < IZR h)%R) by (apply IZR_lt; exact P).
  rewrite !mult_IZR, plus_IZR in H. set (hr := IZR h) in *. clearbody hr.
  assert (V : exists u, w = (u * hr)%R) by (exists (w / hr)%R; field; lra). destruct V as [u ->].
  assert (U : (IZR i < u < IZR i + 1)%R) by (split; apply Rmult_lt_reg_r with hr; lra).
  replace (u * hr * / (2 * hr))%R with (u / 2)%R by (field; lra).
  apply Znearest_imp. pose proof (Z.div_mod (i + 1) 2 ltac:(lia)) as D. pose proof (Z.mod_pos_bound (i + 1) 2 ltac:(lia)) as B.
  set (a := ((i + 1) / 2)%Z) in *. assert (C : i = (2 * a)%Z \/ i = (2 * a - 1)%Z) by lia. clearbody a.
  destruct C as [-> | ->]; rewrite ?minus_IZR, ?mult_IZR in U; apply Rabs_def1; lra.
Qed.
Lemma sticky n m e : (0 <= n)%Z -> (0 < m)%Z -> (n = 0 \/ 10 ^ 28 <= n / m)%Z ->
  rnd28 (IZR (if negb (n mod m =? 0) && (n / m mod 5 =? 0) then n / m + 1 else n / m) * 10^^e) = rnd28 (IZR n / IZR m * 10^^e).
Proof.
  intros Hn Hm Hq. assert (PR : (0 < IZR m)%R) by (apply IZR_lt; exact Hm).
  pose proof (Z.div_mod n m ltac:(lia)) as E. pose proof (Z.mod_pos_bound n m Hm) as B. set (q := (n / m)%Z) in *. set (r := (n mod m)%Z) in *.
  destruct (Z.eqb_spec r 0) as [R0|R0]; cbn [negb andb].
  { do 2 f_equal. rewrite E, R0, Z.add_0_r, mult_IZR. field. lra. }
  assert (N0 : n <> 0%Z). { intros ->. apply R0. unfold r. apply Z.mod_0_l. lia. }
  assert (Q : (10 ^ 28 <= q)%Z) by lia. clear Hq N0.
  assert (V : (IZR q < IZR n / IZR m < IZR (q + 1))%R).
  { rewrite plus_IZR. assert (X : (IZR n / IZR m = IZR q + IZR r / IZR m)%R) by (rewrite E, plus_IZR, mult_IZR; field; lra). rewrite X.
    assert (0 < IZR r / IZR m)%R by (apply Rdiv_lt_0_compat; [apply IZR_lt; lia|exact PR]).
    assert (IZR r / IZR m < 1)%R. { apply Rmult_lt_reg_r with (IZR m); [exact PR|]. unfold Rdiv. rewrite Rmult_assoc, Rinv_l, Rmult_1_r, Rmult_1_l by lra. apply IZR_lt. lia. }
    lra. }
  set (v := (IZR n / IZR m)%R) in *. clearbody v. clear E.
  set (j := (q / 5)%Z). pose proof (Z.div_mod q 5 ltac:(lia)) as E5. pose proof (Z.mod_pos_bound q 5 ltac:(lia)) as B5. fold j in E5.
  set (q' := if (q mod 5 =? 0)%Z then (q + 1)%Z else q).
  assert (Q' : (5 * j < q' < 5 * j + 5 /\ q <= q')%Z) by (unfold q'; destruct (Z.eqb_spec (q mod 5) 0); lia).
  clearbody q'. assert (P' : (0 < q')%Z) by (assert (0 < 10 ^ 28)%Z by (apply Z.pow_pos_nonneg; lia); lia).
  destruct (dec_digits_spec q' ltac:(lia)) as (_ & D2 & [D3|D3]); [lia|]. pose proof (mag_number q' e P') as Mq.
  set (d := dec_digits q') in *. assert (Dd : (29 <= d)%Z).
  { destruct (Z.le_gt_cases 29 d) as [|G]; [assumption|]. assert (10 ^ d <= 10 ^ 28)%Z by (apply Z.pow_le_mono_r; lia). lia. }
  clearbody d. assert (T : forall k, (1 <= k)%Z -> (10 ^ k = 5 * (2 * 10 ^ (k - 1)))%Z).
  { intros k Hk. replace k with (k - 1 + 1)%Z at 1 by lia. rewrite Z.pow_add_r by lia. change (10 ^ 1)%Z with 10%Z. ring. }
  assert (L1 : (10 ^ (d - 1) <= 5 * j)%Z) by (rewrite (T (d - 1)%Z) in D3 |- * by lia; lia).
  assert (L2 : (5 * j + 5 <= 10 ^ d)%Z) by (rewrite (T d) in D2 |- * by lia; lia).
  assert (Vj : (IZR (5 * j) < v < IZR (5 * j + 5))%R).
  { split; [apply Rle_lt_trans with (IZR q)|apply Rlt_le_trans with (IZR (q + 1))]; try apply V; apply IZR_le; lia. }
  assert (Qj : (IZR (5 * j) < IZR q' < IZR (5 * j + 5))%R) by (split; apply IZR_lt; lia).
  assert (Mv : mag ten (v * 10^^e) = (d + e)%Z :> Z).
  { apply IZR_le in L1. apply IZR_le in L2. rewrite pow_bpow in L1, L2 by lia.
    apply mag_unique. assert (0 <= v)%R by (pose proof (bpow_ge_0 ten (d - 1)); lra).
    rewrite Rabs_pos_eq by (apply Rmult_le_pos; [assumption|apply bpow_ge_0]).
    replace (d + e - 1)%Z with ((d - 1) + e)%Z by lia. rewrite (bpow_plus ten (d - 1) e), (bpow_plus ten d e).
    split; [apply Rmult_le_compat_r; [apply bpow_ge_0|lra]|apply Rmult_lt_compat_r; [apply bpow_gt_0|lra]]. }
  rewrite (rnd28_scaled _ _ Mq), (rnd28_scaled _ _ Mv). rewrite !Rmult_assoc, <- bpow_plus.
  replace (e + (28 - (d + e)))%Z with (- (d - 28))%Z by lia. do 2 f_equal.
  set (k := (d - 28)%Z) in *. assert (Hk : (1 <= k)%Z) by lia. clearbody k.
  set (i := (j / 10 ^ (k - 1))%Z).
  assert (I : (i * (5 * 10 ^ (k - 1)) <= 5 * j /\ 5 * j + 5 <= (i + 1) * (5 * 10 ^ (k - 1)))%Z).
  { assert (P : (0 < 10 ^ (k - 1))%Z) by (apply Z.pow_pos_nonneg; lia). pose proof (Z.div_mod j (10 ^ (k - 1)) ltac:(lia)) as Ej. pose proof (Z.mod_pos_bound j (10 ^ (k - 1)) P) as Bj. fold i in Ej.
    set (p := (10 ^ (k - 1))%Z) in *. clearbody p i. split; nia. }
  destruct I as [I1 I2]. apply IZR_le in I1. apply IZR_le in I2.
  rewrite (same_side (IZR q') i k Hk), (same_side v i k Hk) by lra. reflexivity.
Qed.
Lemma truediv_core x y rx ry : dec_is x rx -> dec_is y ry -> d_coef y <> 0%Z ->
  exists z e, dec_truediv x y = dec_finish z e /\ rnd28 (IZR z * 10^^e) = rnd28 (rx / ry).
Proof.
  intros [Hx ->] [Hy ->] Ny. unfold dec_truediv. replace (d_coef y =? 0)%Z with false by lia. cbv zeta.
  set (cx := d_coef x) in *. set (cy := d_coef y) in *. set (sh := (dec_digits cy - dec_digits cx + 29)%Z).
  set (e := (d_exp x - d_exp y - sh)%Z). set (n := if (0 <=? sh)%Z then (cx * 10 ^ sh)%Z else cx).
  set (m := if (0 <=? sh)%Z then cy else (cy * 10 ^ (- sh))%Z).
  do 2 eexists. split; [reflexivity|].
  assert (Hm : (0 < m)%Z). { unfold m. destruct (0 <=? sh)%Z eqn:S; [lia|]. apply Z.mul_pos_pos; [lia|apply Z.pow_pos_nonneg; lia]. }
  assert (Hn : (0 <= n)%Z). { unfold n. destruct (0 <=? sh)%Z eqn:S; [|lia]. apply Z.mul_nonneg_nonneg; [lia|apply Z.pow_nonneg; lia]. }
  assert (Rat : (IZR n / IZR m = IZR cx / IZR cy * 10^^sh)%R).
  { assert (IZR cy <> 0%R) by (apply IZR_neq; exact Ny). unfold n, m. destruct (Z.leb_spec 0 sh).
    - rewrite mult_IZR, pow_bpow by lia. field. assumption.
    - rewrite mult_IZR, pow_bpow by lia. replace sh with (- - sh)%Z at 2 by lia. rewrite (bpow_opp ten (- sh)). field. split; [|assumption]. pose proof (bpow_gt_0 ten (- sh)); lra. }
  assert (Q : (n = 0 \/ 10 ^ 28 <= n / m)%Z).
  { destruct (Z.eq_dec cx 0) as [Z0|Z0]; [left; unfold n; rewrite Z0; destruct (0 <=? sh)%Z; reflexivity|right].
    destruct (dec_digits_spec cx Hx) as (X1 & X2 & [X3|X3]); [lia|]. destruct (dec_digits_spec cy Hy) as (Y1 & Y2 & _).
    apply Z.div_le_lower_bound; [exact Hm|]. apply le_IZR.
    assert (Pm : (0 < IZR m)%R) by (apply IZR_lt; exact Hm). rewrite mult_IZR.
    replace (IZR n) with (IZR m * (IZR n / IZR m))%R by (field; lra). apply Rmult_le_compat_l; [lra|]. rewrite Rat.
    assert (Pcy : (0 < IZR cy)%R) by (apply IZR_lt; lia).
    apply Rmult_le_reg_r with (IZR cy); [exact Pcy|]. replace (IZR cx / IZR cy * 10^^sh * IZR cy)%R with (IZR cx * 10^^sh)%R by (field; lra).
    apply Rle_trans with (10^^28 * 10^^(dec_digits cy))%R.
    - rewrite <- !pow_bpow by lia. apply Rmult_le_compat_l; [apply IZR_le, Z.pow_nonneg; lia|apply IZR_le; lia].
    - apply Rle_trans with (10^^(dec_digits cx - 1) * 10^^sh)%R; [rewrite <- !bpow_plus; apply bpow_le; unfold sh; lia|].
      apply Rmult_le_compat_r; [apply bpow_ge_0|]. rewrite <- pow_bpow by lia. apply IZR_le, X3. }
  pose proof (sticky n m e Hn Hm Q) as S. set (q' := if _ && _ then _ else _) in *.
  assert (W : (IZR n / IZR m * 10^^e)%R = (IZR cx * 10^^(d_exp x) / (IZR cy * 10^^(d_exp y)))%R).
  { rewrite Rat, Rmult_assoc, <- bpow_plus. replace (sh + e)%Z with (d_exp x + - d_exp y)%Z by (unfold e; lia). rewrite bpow_plus, bpow_opp.
    pose proof (bpow_gt_0 ten (d_exp y)). assert (IZR cy <> 0%R) by (apply IZR_neq; exact Ny). field. split; lra. }
  rewrite W in S. clearbody q'. pose proof (bpow_gt_0 ten (d_exp y)) as By. assert (Ncy : IZR cy <> 0%R) by (apply IZR_neq; exact Ny).
  set (a := (IZR cx * 10^^(d_exp x))%R) in *. set (b := (IZR cy * 10^^(d_exp y))%R) in *.
  assert (Nb : b <> 0%R) by (unfold b; apply Rmult_integral_contrapositive_currified; lra).
  rewrite (Rmult_assoc (if d_sign x then -1 else 1)%R), (Rmult_assoc (if d_sign y then -1 else 1)%R). fold a b.
  destruct (d_sign x), (d_sign y); cbn [xorb cond_neg].
  - rewrite S. f_equal. field. exact Nb.
  - replace (-1 * a / (1 * b))%R with (- (a / b))%R by (field; exact Nb). rewrite opp_IZR, Ropp_mult_distr_l_reverse, !rnd28_opp. f_equal. exact S.
  - replace (1 * a / (-1 * b))%R with (- (a / b))%R by (field; exact Nb). rewrite opp_IZR, Ropp_mult_distr_l_reverse, !rnd28_opp. f_equal. exact S.
  - rewrite S. f_equal. field. exact Nb.
Qed.

Lemma zero_value d x : dec_is d x -> (x = 0%R <-> d_coef d = 0%Z).
Proof.
  intros [H ->]. pose proof (bpow_gt_0 ten (d_exp d)). split.
  - intros E. apply eq_IZR. destruct (d_sign d); apply Rmult_integral in E; destruct E as [E|E]; lra.
  - intros ->. rewrite Rmult_0_r, Rmult_0_l. reflexivity.
Qed.
Lemma quotient_of x y rx ry : dec_is x rx -> dec_is y ry -> ry <> 0%R ->
  let e := common_exp x y in (over e y <> 0)%Z /\ Ztrunc (rx / ry) = Z.quot (over e x) (over e y).
Proof.
  intros Hx Hy N e. rewrite (over_value x rx e Hx), (over_value y ry e Hy) in * by (unfold e, common_exp; lia).
  assert (N' : over e y <> 0%Z) by (intros Z0; apply N; rewrite Z0; ring). split; [exact N'|]. rewrite <- (Ztrunc_quot _ _ N').
  f_equal. pose proof (bpow_gt_0 ten e). assert (IZR (over e y) <> 0%R) by (apply IZR_neq; exact N'). field. split; lra.
Qed.
Lemma int_computes r z e x : x = (IZR z * 10^^e)%R -> r = dec_finish z e -> forall f : decimal -> Z, forall g : R -> Z, (forall d v, dec_is d v -> f d = g v) ->
  computes_int (do q <- r; Ok (DInt (f q))) g x.
Proof.
  intros -> -> f g FG. destruct (finish_is z e) as [[A (d & B & C)]|[A B]]; [left|right]; split; [exact A| |exact A|rewrite B; reflexivity].
  rewrite B. cbn [rbind]. rewrite (FG _ _ C). reflexivity.
Qed.
Lemma int_computes' r z e x : rnd28 (IZR z * 10^^e) = rnd28 x -> r = dec_finish z e -> forall f : decimal -> Z, forall g : R -> Z, (forall d v, dec_is d v -> f d = g v) ->
  computes_int (do q <- r; Ok (DInt (f q))) g x.
Proof. intros E H f g FG. unfold computes_int. rewrite <- E. exact (int_computes r z e _ eq_refl H f g FG). Qed.

(** ** C124: with a Decimal on either side, +, - and * give a Decimal: the exact result rounded to 28 digits *)
Theorem C124_arithmetic : forall a b x y, dnum_is a x -> dnum_is b y -> is_dec a \/ is_dec b ->
  computes (fd_bin BAdd a b) (x + y) /\ computes (fd_bin BSub a b) (x - y) /\ computes (fd_bin BMul a b) (x * y).
Proof.
  intros a b x y Ha Hb Hd. assert (E : forall o, fd_bin o a b = match o with
      | BAdd => rmap DDec (dec_add (as_dec a) (as_dec b)) | BSub => rmap DDec (dec_sub (as_dec a) (as_dec b)) | BMul => rmap DDec (dec_mul (as_dec a) (as_dec b))
      | _ => fd_bin o a b end).
  { intros o. destruct Hd as [[d ->]|[d ->]]; [|destruct a]; destruct o; reflexivity. }
  rewrite (E BAdd), (E BSub), (E BMul). apply as_dec_is in Ha. apply as_dec_is in Hb. clear Hd E.
  set (u := as_dec a) in *. set (v := as_dec b) in *. clearbody u v. unfold dec_add, dec_sub, dec_mul. cbv zeta.
  pose proof (over_value u x (common_exp u v) Ha ltac:(unfold common_exp; lia)) as X. pose proof (over_value v y (common_exp u v) Hb ltac:(unfold common_exp; lia)) as Y.
  split; [|split]; apply finish_computes.
  - rewrite X, Y at 1. rewrite plus_IZR. ring.
  - rewrite X, Y at 1. rewrite minus_IZR. ring.
  - destruct Ha as [_ ->]. destruct Hb as [_ ->]. rewrite mult_IZR, !signed_value, bpow_plus. ring.
Qed.
Print Assumptions C124_arithmetic.

(** ** / gives an int: the exact quotient rounded to 28 digits, then cut; % and // use the quotient cut
    towards zero, refused when it has more than 28 digits *)
Theorem C124_division : forall a b x y, dnum_is a x -> dnum_is b y -> is_dec a \/ is_dec b -> y <> 0%R ->
  computes_int (fd_bin BTrueDiv a b) Ztrunc (x / y) /\
  let q := Ztrunc (x / y) in
  ((Z.abs q < 10 ^ 28)%Z -> (exists d, fd_bin BFloorDiv a b = Ok (DDec d) /\ dec_is d (IZR q)) /\ computes_int (fd_bin BMod a b) Ztrunc (x - y * IZR q)) /\
  ((10 ^ 28 <= Z.abs q)%Z -> fd_bin BFloorDiv a b = Raise InvalidOperation /\ fd_bin BMod a b = Raise InvalidOperation).
Proof.
  intros a b x y Ha Hb Hd N. assert (E : forall o, fd_bin o a b = match o with
      | BTrueDiv => do q <- dec_truediv (as_dec a) (as_dec b); Ok (DInt (int_of_dec q)) | BFloorDiv => rmap DDec (dec_floordiv (as_dec a) (as_dec b))
      | BMod => do q <- dec_mod (as_dec a) (as_dec b); Ok (DInt (int_of_dec q))
      | _ => fd_bin o a b end).
  { intros o. destruct Hd as [[d ->]|[d ->]]; [|destruct a]; destruct o; reflexivity. }
  rewrite (E BTrueDiv), (E BFloorDiv), (E BMod). apply as_dec_is in Ha. apply as_dec_is in Hb. clear Hd E.
  set (u := as_dec a) in *. set (v := as_dec b) in *. clearbody u v.
  assert (Nv : d_coef v <> 0%Z) by (intros Z0; apply N, (zero_value v y Hb), Z0).
  destruct (truediv_core u v x y Ha Hb Nv) as (z & e & T1 & T2). cbv zeta.
  split. { apply int_computes' with (z := z) (e := e); [exact T2|exact T1|exact int_of_dec_is]. }
  destruct (quotient_of u v x y Ha Hb N) as [Nq Q]. rewrite Q. unfold dec_floordiv, dec_mod, dec_divide. cbv zeta.
  replace (d_coef v =? 0)%Z with false by lia. remember (10 ^ 28)%Z as B eqn:EB. clear EB.
  set (ce := common_exp u v) in *. split; intros HB.
  - replace (Z.abs (Z.quot (over ce u) (over ce v)) <? B)%Z with true by lia. cbn [rbind rmap fst snd]. split.
    + eexists. split; [reflexivity|]. pose proof (of_signed_is (Z.quot (over ce u) (over ce v)) 0) as H. change (10^^0) with 1%R in H. rewrite Rmult_1_r in H. exact H.
    + apply int_computes with (z := Z.rem (over ce u) (over ce v)) (e := ce); [|reflexivity|exact int_of_dec_is].
      rewrite (over_value u x ce Ha), (over_value v y ce Hb) by (unfold ce, common_exp; lia).
      pose proof (Z.quot_rem' (over ce u) (over ce v)) as QR. apply (f_equal IZR) in QR. rewrite plus_IZR, mult_IZR in QR. rewrite QR at 1. ring.
  - replace (Z.abs (Z.quot (over ce u) (over ce v)) <? B)%Z with false by lia. split; reflexivity.
Qed.
Print Assumptions C124_division.

(** dividing by zero: decimal's exceptions *)
Theorem C124_zero_divisor : forall a b x y, dnum_is a x -> dnum_is b y -> is_dec a \/ is_dec b -> y = 0%R ->
  fd_bin BMod a b = Raise InvalidOperation /\
  (x = 0%R -> fd_bin BTrueDiv a b = Raise InvalidOperation /\ fd_bin BFloorDiv a b = Raise InvalidOperation) /\
  (x <> 0%R -> fd_bin BTrueDiv a b = Raise ZeroDivisionError /\ fd_bin BFloorDiv a b = Raise ZeroDivisionError).
Proof.
  intros a b x y Ha Hb Hd Y0. assert (E : forall o, fd_bin o a b = match o with
      | BTrueDiv => do q <- dec_truediv (as_dec a) (as_dec b); Ok (DInt (int_of_dec q)) | BFloorDiv => rmap DDec (dec_floordiv (as_dec a) (as_dec b))
      | BMod => do q <- dec_mod (as_dec a) (as_dec b); Ok (DInt (int_of_dec q))
      | _ => fd_bin o a b end).
  { intros o. destruct Hd as [[d ->]|[d ->]]; [|destruct a]; destruct o; reflexivity. }
  rewrite (E BTrueDiv), (E BFloorDiv), (E BMod). apply as_dec_is in Ha. apply as_dec_is in Hb. clear Hd E.
  set (u := as_dec a) in *. set (v := as_dec b) in *. clearbody u v. apply (zero_value v y Hb) in Y0. pose proof (zero_value u x Ha) as X.
  unfold dec_truediv, dec_floordiv, dec_mod. rewrite Y0. cbn [Z.eqb rbind]. split; [reflexivity|]. split; intros H.
  - apply X in H. rewrite H. split; reflexivity.
  - assert (d_coef u <> 0%Z) by tauto. replace (d_coef u =? 0)%Z with false by lia. split; reflexivity.
Qed.
Print Assumptions C124_zero_divisor.

(** results of at most 28 digits are exact *)
Theorem C124_exact : forall m e, (Z.abs m < 10 ^ 28)%Z -> rnd28 (IZR m * 10^^e) = (IZR m * 10^^e)%R.
Proof.
  intros m e H. pose proof (digits_format (Z.abs m) e ltac:(lia) (dec_digits_le (Z.abs m) 28 ltac:(lia) ltac:(lia))) as F.
  destruct (Z.abs_spec m) as [[_ A]|[_ A]]; rewrite A in F; [exact F|]. rewrite opp_IZR, Ropp_mult_distr_l_reverse, rnd28_opp in F. lra.
Qed.
Print Assumptions C124_exact.

(** the same quotient is rounded down between ints and towards zero when one of the two is a Decimal *)
Theorem C124_floor_differs : forall a b, (b <> 0)%Z -> (Z.abs a < 10 ^ 28)%Z ->
  fd_bin BFloorDiv (DInt a) (DInt b) = Ok (DInt (a / b)) /\
  exists d, fd_bin BFloorDiv (DDec (of_signed a 0)) (DInt b) = Ok (DDec d) /\ dec_is d (IZR (Z.quot a b)).
Proof.
  intros a b N H. split.
  - cbn [fd_bin bin_fn]. unfold f8_floordiv. replace (b =? 0)%Z with false by lia. reflexivity.
  - destruct (C124_division (DDec (of_signed a 0)) (DInt b) (IZR a) (IZR b)) as (_ & P & _).
    + apply (as_dec_is (DInt a)). reflexivity.
    + reflexivity.
    + left. eexists. reflexivity.
    + apply IZR_neq, N.
    + rewrite (Ztrunc_quot a b N) in P. apply P. pose proof (Z.quot_abs a b N) as QA. rewrite <- QA.
      assert (Z.quot (Z.abs a) (Z.abs b) <= Z.abs a)%Z; [|lia]. apply Z.quot_le_upper_bound; [lia|]. rewrite <- (Z.mul_1_l (Z.abs a)) at 1. apply Z.mul_le_mono_nonneg_r; lia.
Qed.
Print Assumptions C124_floor_differs.

(** comparisons are those of the numbers, whatever the number of digits *)
Theorem C124_comparisons : forall a b x y, dnum_is a x -> dnum_is b y ->
  (fd_eq a b = true <-> x = y) /\ (fd_lt a b = true <-> (x < y)%R) /\ (fd_gt a b = true <-> (x > y)%R) /\
  (fd_ge a b = true <-> (x >= y)%R) /\ (fd_le a b = true <-> (x <= y)%R).
Proof.
  intros a b x y Ha Hb. apply as_dec_is in Ha. apply as_dec_is in Hb. unfold fd_eq, fd_lt, fd_gt, fd_ge, fd_le, fd_compare. cbv zeta.
  set (u := as_dec a) in *. set (v := as_dec b) in *. clearbody u v. set (e := common_exp u v).
  rewrite (over_value u x e Ha), (over_value v y e Hb) by (unfold e, common_exp; lia). pose proof (bpow_gt_0 ten e) as P. set (p := 10^^e) in *. clearbody p.
  set (m := over e u). set (n := over e v). clearbody m n.
  destruct (Z.compare_spec m n) as [C|C|C].
  - subst. repeat split; intros; try discriminate; try lra; reflexivity.
  - assert (IZR m * p < IZR n * p)%R by (apply Rmult_lt_compat_r; [exact P|apply IZR_lt, C]). repeat split; intros; try discriminate; try lra; reflexivity.
  - assert (IZR n * p < IZR m * p)%R by (apply Rmult_lt_compat_r; [exact P|apply IZR_lt, C]). repeat split; intros; try discriminate; try lra; reflexivity.
Qed.
Print Assumptions C124_comparisons.

(** whole units: the amount over 10^8, rounded to 28 digits, then cut, rounded up or down *)
Lemma floor_is d x : dec_is d x -> dec_floor d = Zfloor x.
Proof.
  intros [H ->]. unfold dec_floor. rewrite <- signed_value. destruct (Z.leb_spec 0 (d_exp d)).
  - rewrite <- pow_bpow, <- mult_IZR, Zfloor_IZR by lia. reflexivity.
  - replace (10^^(d_exp d)) with (/ IZR (10 ^ (- d_exp d)))%R. { symmetry. apply Zfloor_div. apply Z.pow_nonzero; lia. }
    rewrite pow_bpow by lia. rewrite <- bpow_opp. f_equal. lia.
Qed.
Lemma ceil_is d x : dec_is d x -> dec_ceil d = Zceil x.
Proof.
  intros [H ->]. unfold dec_ceil. rewrite <- signed_value. destruct (Z.leb_spec 0 (d_exp d)).
  - rewrite <- pow_bpow, <- mult_IZR, Zceil_IZR by lia. reflexivity.
  - unfold Zceil. f_equal. rewrite <- Ropp_mult_distr_l_reverse, <- opp_IZR.
    replace (10^^(d_exp d)) with (/ IZR (10 ^ (- d_exp d)))%R. { symmetry. apply Zfloor_div. apply Z.pow_nonzero; lia. }
    rewrite pow_bpow by lia. rewrite <- bpow_opp. f_equal. lia.
Qed.
Theorem C124_units : forall d x, dec_is d x ->
  computes_int (rmap DInt (fd_ToInt (DDec d))) Ztrunc (x / 100000000) /\
  computes_int (fd_Ceil (DDec d)) (fun r => Zceil r * 100000000)%Z (x / 100000000) /\
  computes_int (fd_Floor (DDec d)) (fun r => Zfloor r * 100000000)%Z (x / 100000000).
Proof.
  intros d x H. assert (HD : dec_is D_dec 100000000) by (apply (as_dec_is (DInt D)); reflexivity).
  destruct (truediv_core d D_dec x 100000000 H HD ltac:(discriminate)) as (z & e & T1 & T2).
  split; [|split].
  - assert (rmap DInt (fd_ToInt (DDec d)) = (do q <- dec_truediv d D_dec; Ok (DInt (int_of_dec q)))) as -> by (cbn [fd_ToInt]; destruct (dec_truediv d D_dec); reflexivity).
    apply int_computes' with (z := z) (e := e); [exact T2|exact T1|exact int_of_dec_is].
  - apply (int_computes' _ z e) with (f := fun q => (dec_ceil q * D)%Z); [exact T2|exact T1|]. intros q v Hq. rewrite (ceil_is q v Hq). reflexivity.
  - apply (int_computes' _ z e) with (f := fun q => (dec_floor q * D)%Z); [exact T2|exact T1|]. intros q v Hq. rewrite (floor_is q v Hq). reflexivity.
Qed.
Print Assumptions C124_units.

(** negation rounds too *)
Theorem C124_negation : forall d x, dec_is d x -> computes (fd_neg (DDec d)) (- x).
Proof.
  intros d x H. unfold fd_neg. destruct (C124_arithmetic (DInt (-1)) (DDec d) (-1) x eq_refl H) as (_ & _ & M); [right; eexists; reflexivity|].
  replace (- x)%R with (-1 * x)%R by ring. exact M.
Qed.
Print Assumptions C124_negation.

(** which operators keep the Decimal and which give an int again *)
Theorem C124_contagious : forall o a b r, is_dec a \/ is_dec b -> fd_bin o a b = Ok r ->
  match o with BAdd | BSub | BMul | BFloorDiv => is_dec r | BTrueDiv | BMod => ~ is_dec r end.
Proof.
  intros o a b r Hd. assert (K : forall t, rmap DDec t = Ok r -> is_dec r) by (intros [d|x]; cbn; [intros H; injection H as <-; exists d; reflexivity|discriminate]).
  assert (K' : forall t : res decimal, (do q <- t; Ok (DInt (int_of_dec q))) = Ok r -> ~ is_dec r) by (intros [d|x]; cbn; [intros H [d' C]; congruence|discriminate]).
  destruct Hd as [[d ->]|[d ->]]; [|destruct a]; destruct o; cbn [fd_bin]; eauto.
Qed.
Print Assumptions C124_contagious.

(** such an amount cannot be written, and nothing is written *)
Theorem C124_not_written : forall d, refuses (fd_Write (DDec d)) StructError.
Proof. intros d w. reflexivity. Qed.
Print Assumptions C124_not_written.

(** with ints in both places everything is as in M_Fixed8 *)
Theorem C124_ints : forall a b,
  (forall o, fd_bin o (DInt a) (DInt b) = rmap DInt (bin_fn o a b)) /\ fd_neg (DInt a) = rmap DInt (f8_neg a) /\
  fd_Ceil (DInt a) = rmap DInt (Ceil a) /\ fd_Floor (DInt a) = rmap DInt (Floor a) /\ fd_ToInt (DInt a) = ToInt a /\
  fd_eq (DInt a) (DInt b) = f8_eq a b /\ fd_lt (DInt a) (DInt b) = f8_lt a b /\ fd_gt (DInt a) (DInt b) = f8_gt a b /\
  fd_ge (DInt a) (DInt b) = f8_ge a b /\ fd_le (DInt a) (DInt b) = f8_le a b.
Proof.
  intros a b. destruct (C124_comparisons (DInt a) (DInt b) (IZR a) (IZR b) eq_refl eq_refl) as (E & L & G & GE & LE).
  assert (B : forall p q : bool, (p = true <-> q = true) -> p = q) by (intros [] [] H; intuition congruence).
  repeat match goal with |- _ /\ _ => split end; try reflexivity; apply B.
  - rewrite E. unfold f8_eq. rewrite Z.eqb_eq. split; [apply eq_IZR|intros ->; reflexivity].
  - rewrite L. unfold f8_lt. rewrite Z.ltb_lt. split; [apply lt_IZR|apply IZR_lt].
  - rewrite G. unfold f8_gt. split; [intros H; apply lt_IZR in H; lia|intros H; apply IZR_lt; lia].
  - rewrite GE. unfold f8_ge. split; [intros H; apply Rge_le, le_IZR in H; lia|intros H; apply Rle_ge, IZR_le; lia].
  - rewrite LE. unfold f8_le. split; [intros H; apply le_IZR in H; lia|intros H; apply IZR_le; lia].
Qed.
Print Assumptions C124_ints.

(** Fixed8(Decimal('1.5')) is one and a half hundred-millionths, not one and a half units; Fixed8(-7) //
    Fixed8(Decimal(2)) holds Decimal('-3'), Fixed8(-7) // Fixed8(2) holds -4; adding Fixed8(Decimal(0)) drops
    digits beyond the 28th *)
Example C124_example :
  fd_ToInt (DDec (mkDec false 15 (-1))) = Ok 0 /\
  fd_bin BFloorDiv (DInt (-7)) (DDec (mkDec false 2 0)) = Ok (DDec (mkDec true 3 0)) /\ fd_bin BFloorDiv (DInt (-7)) (DInt 2) = Ok (DInt (-4)) /\
  fd_bin BMod (DInt (-7)) (DDec (mkDec false 2 0)) = Ok (DInt (-1)) /\ fd_bin BMod (DInt (-7)) (DInt 2) = Ok (DInt 1) /\
  fd_bin BTrueDiv (DDec (mkDec false 2 0)) (DInt 3) = Ok (DInt 0) /\
  dec_truediv (mkDec false 2 0) (mkDec false 3 0) = Ok (mkDec false 6666666666666666666666666667 (-28)) /\
  fd_bin BAdd (DInt (10 ^ 28 + 1)) (DDec (mkDec false 0 0)) = Ok (DDec (mkDec false (10 ^ 27) 1)) /\
  fd_bin BFloorDiv (DInt (10 ^ 28)) (DDec (mkDec false 1 0)) = Raise InvalidOperation /\
  fd_bin BFloorDiv (DInt 0) (DDec (mkDec false 0 0)) = Raise InvalidOperation.
Proof. vm_compute. repeat split. Qed.
Print Assumptions C124_example.
