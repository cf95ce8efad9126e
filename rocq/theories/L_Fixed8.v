(** * L_Fixed8 *)
From Coq Require Import Reals Lia Lra.
From Flocq Require Import Core.
From Flocq Require Import BinarySingleNaN.
From Coq Require Import Floats.SpecFloat.
From Verif Require Import M_Py M_Float M_Fixed8 S_Float L_Float.
Open Scope Z_scope.
Local Instance Hprec : FLX.Prec_gt_0 53 := eq_refl _.

Lemma bpow_m52 : bpow radix2 (-52) = (/ 4503599627370496)%R.
Proof. reflexivity. Qed.
Lemma bpow_m1022_small : (bpow radix2 (-1022) <= / 2)%R.
Proof. change (/ 2)%R with (bpow radix2 (-1)). apply bpow_le. lia. Qed.
Lemma bpow_1024_big : (IZR (2 ^ 53) < bpow radix2 1024)%R.
Proof. change (2 ^ 53) with (Zpower radix2 53). rewrite IZR_Zpower by lia. apply bpow_lt. lia. Qed.

(** the only delicate case: the quotient just below an integer *)
Lemma no_round_up a b k : 0 <= a <= 2 ^ 53 -> 0 < b -> k = a / b -> a mod b <> 0 -> (rnd64 (IZR a / IZR b) < IZR (k + 1))%R.
Proof.
  intros Ha Hb Hk Hm. pose proof (Z.div_mod a b ltac:(lia)) as E. rewrite <- Hk in E. pose proof (Z.mod_pos_bound a b Hb) as M.
  assert (Hbr : (0 < IZR b)%R) by (apply IZR_lt; lia). set (q := (IZR a / IZR b)%R).
  assert (Hq0 : (0 <= q)%R). { apply Rmult_le_pos; [apply IZR_le; lia|]. left. apply Rinv_0_lt_compat, Hbr. }
  assert (Hq : (q * IZR b = IZR a)%R) by (unfold q; field; lra).
  assert (Hgap : (IZR (k + 1) * IZR b - q * IZR b >= 1)%R).
  { rewrite Hq, <- mult_IZR, <- minus_IZR. apply Rle_ge. apply IZR_le. nia. }
  assert (Hlt : (q < IZR (k + 1))%R).
  { apply Rmult_lt_reg_r with (IZR b); [exact Hbr|]. lra. }
  assert (Hk1 : 0 <= k + 1 <= 2 ^ 53). { assert (0 <= k) by (subst k; apply Z.div_pos; lia). nia. }
  destruct (Rle_lt_dec q (/ 2)) as [Hs|Hs].
  { apply Rle_lt_trans with (/ 2)%R.
    - apply round_le_generic; [auto with typeclass_instances..| |exact Hs].
      change (/ 2)%R with (bpow radix2 (-1)). apply generic_format_bpow. unfold FLT_exp. lia.
    - apply Rlt_le_trans with 1%R; [lra|]. apply IZR_le. assert (0 <= k) by (subst k; apply Z.div_pos; lia). lia. }
  destruct (Rlt_le_dec (rnd64 q) (IZR (k + 1))) as [H|H]; [exact H|exfalso].
  assert (Hle : (rnd64 q <= IZR (k + 1))%R) by (apply rnd64_le; [lia|lra]).
  assert (Hr : rnd64 q = IZR (k + 1)) by lra.
  pose proof (rnd64_err q) as Herr. rewrite Hr in Herr. rewrite Rabs_right in Herr by lra.
  assert (Hu : (ulp radix2 (FLT_exp (-1074) 53) q <= q * bpow radix2 (-52))%R).
  { rewrite <- (Rabs_right q) at 2 by lra. apply ulp_rel. rewrite Rabs_right by lra. pose proof bpow_m1022_small. lra. }
  rewrite bpow_m52 in Hu.
  assert (Hab : (IZR a <= 9007199254740992)%R) by (apply IZR_le; lia).
  (* 1 <= b (k+1 - q) <= b ulp/2 <= q b 2^-53 = a 2^-53 <= 1 *)
  assert (H1 : (IZR b * (/ 2 * ulp radix2 (FLT_exp (-1074) 53) q) <= IZR b * (/ 2 * (q * / 4503599627370496)))%R).
  { apply Rmult_le_compat_l; lra. }
  assert (H2 : (IZR b * (IZR (k + 1) - q) <= IZR b * (/ 2 * ulp radix2 (FLT_exp (-1074) 53) q))%R).
  { apply Rmult_le_compat_l; lra. }
  replace (IZR b * (/ 2 * (q * / 4503599627370496)))%R with (IZR a * / 9007199254740992)%R in H1 by (rewrite <- Hq; field).
  replace (IZR b * (IZR (k + 1) - q))%R with (IZR (k + 1) * IZR b - q * IZR b)%R in H2 by ring. rewrite Hq in Hgap, H2.
  assert (Ea : a = 2 ^ 53). { apply Z.le_antisymm; [lia|]. apply le_IZR. change (2 ^ 53) with 9007199254740992. lra. }
  assert (Eg : (IZR b * (/ 2 * ulp radix2 (FLT_exp (-1074) 53) q) = 1)%R).
  { assert (IZR a = 9007199254740992)%R by (rewrite Ea; reflexivity). lra. }
  assert (Eb : (IZR (k + 1) * IZR b - IZR a = 1)%R) by lra.
  assert (Eb' : (k + 1) * b = 2 ^ 53 + 1). { rewrite <- Ea. apply eq_IZR. rewrite mult_IZR, (plus_IZR a). lra. }
  (* ulp q is a power of two, so b is one *)
  rewrite ulp_neq_0 in Eg by lra. set (c := cexp radix2 (FLT_exp (-1074) 53) q) in *.
  assert (Hb2 : IZR b = bpow radix2 (1 - c)).
  { replace (1 - c)%Z with (1 + - c)%Z by lia. rewrite bpow_plus, bpow_opp. change (bpow radix2 1) with 2%R.
    pose proof (bpow_gt_0 radix2 c). apply Rmult_eq_reg_r with (/ 2 * bpow radix2 c)%R; [|nra]. rewrite Eg. field. lra. }
  assert (Hc : 0 <= 1 - c). {  destruct (Z.le_gt_cases 0 (1 - c)) as [L|L]; [exact L|]. exfalso.
    assert (bpow radix2 (1 - c) <= bpow radix2 (-1))%R by (apply bpow_le; lia). change (bpow radix2 (-1)) with (/ 2)%R in *.
    assert (1 <= IZR b)%R by (apply IZR_le; lia). lra. }
  rewrite <- IZR_Zpower in Hb2 by exact Hc. apply eq_IZR in Hb2. change (Zpower radix2 (1 - c)) with (2 ^ (1 - c)) in Hb2.
  destruct (Z.eq_dec (1 - c) 0) as [Z0|Z0].
  - rewrite Z0 in Hb2. subst b. rewrite Z.mod_1_r in Hm. lia.
  - assert (Ev : (2 | b)). { rewrite Hb2. replace (1 - c) with (Z.succ (- c)) by lia. rewrite Z.pow_succ_r by lia. exists (2 ^ (- c)). ring. }
    assert (D2 : (2 | 2 ^ 53 + 1)) by (rewrite <- Eb'; apply Z.divide_mul_r, Ev).
    destruct D2 as [w Hw]. lia.
Qed.

Lemma trunc_div_pos a b : 0 <= a <= 2 ^ 53 -> 0 < b -> Ztrunc (rnd64 (IZR a / IZR b)) = a / b.
Proof.
  intros Ha Hb. assert (Hbr : (0 < IZR b)%R) by (apply IZR_lt; lia).
  assert (Hk : 0 <= a / b <= a) by (split; [apply Z.div_pos; lia|]; apply Z.div_le_upper_bound; nia).
  pose proof (Z.div_mod a b ltac:(lia)) as E.
  destruct (Z.eq_dec (a mod b) 0) as [M|M].
  - assert (IZR a / IZR b = IZR (a / b))%R as ->.
    { rewrite E at 1. rewrite M, Z.add_0_r, mult_IZR. field. lra. }
    rewrite rnd64_int by lia. apply Ztrunc_IZR.
  - assert (Hlo : (IZR (a / b) <= IZR a / IZR b)%R).
    { apply Rmult_le_reg_r with (IZR b); [exact Hbr|]. replace (IZR a / IZR b * IZR b)%R with (IZR a) by (field; lra).
      rewrite <- mult_IZR. apply IZR_le. pose proof (Z.mod_pos_bound a b Hb). nia. }
    assert (Hl : (IZR (a / b) <= rnd64 (IZR a / IZR b))%R) by (apply rnd64_ge; [lia|exact Hlo]).
    rewrite Ztrunc_floor by (eapply Rle_trans; [|exact Hl]; apply IZR_le; lia).
    apply Zfloor_imp. split; [exact Hl|]. apply no_round_up; auto.
Qed.
Lemma trunc_div a b : Z.abs a <= 2 ^ 53 -> b <> 0 -> Ztrunc (rnd64 (IZR a / IZR b)) = Z.quot a b.
Proof.
  intros Ha Hb.
  assert (Pos : forall x y, 0 <= x <= 2 ^ 53 -> 0 < y -> Ztrunc (rnd64 (IZR x / IZR y)) = Z.quot x y).
  { intros x y Hx Hy. rewrite trunc_div_pos by lia. symmetry. apply Z.quot_div_nonneg; lia. }
  destruct (Z.le_gt_cases 0 a) as [A|A], (Z.lt_trichotomy b 0) as [B|[B|B]]; try lia.
  - assert (IZR b <> 0%R) by (apply IZR_neq; lia).
    replace (IZR a / IZR b)%R with (- (IZR a / IZR (- b)))%R by (rewrite opp_IZR; field; assumption).
    rewrite rnd64_opp, Ztrunc_opp, Pos by lia. rewrite Z.quot_opp_r by lia. lia.
  - apply Pos; lia.
  - assert (IZR b <> 0%R) by (apply IZR_neq; lia).
    replace (IZR a / IZR b)%R with (IZR (- a) / IZR (- b))%R by (rewrite !opp_IZR; field; assumption).
    rewrite Pos by lia. rewrite Z.quot_opp_opp by lia. reflexivity.
  - replace (IZR a / IZR b)%R with (- (IZR (- a) / IZR b))%R by (rewrite opp_IZR; unfold Rdiv; ring).
    rewrite rnd64_opp, Ztrunc_opp, Pos by lia. rewrite Z.quot_opp_l by lia. lia.
Qed.

Lemma div_no_overflow a b : Z.abs a <= 2 ^ 53 -> b <> 0 -> (Rabs (rnd64 (IZR a / IZR b)) < bpow radix2 1024)%R.
Proof.
  intros Ha Hb. eapply Rle_lt_trans; [|exact bpow_1024_big].
  assert (Q : (Rabs (IZR a / IZR b) <= IZR (2 ^ 53))%R).
  { unfold Rdiv. rewrite Rabs_mult. rewrite <- abs_IZR. apply Rle_trans with (IZR (Z.abs a) * 1)%R.
    - apply Rmult_le_compat_l; [apply IZR_le; lia|]. rewrite Rabs_inv, <- abs_IZR. rewrite <- Rinv_1. apply Rinv_le; [lra|]. apply IZR_le. lia.
    - rewrite Rmult_1_r. apply IZR_le. lia. }
  apply Rabs_le. apply Rabs_le_inv in Q. rewrite <- opp_IZR in *. split; [apply rnd64_ge|apply rnd64_le]; lra || lia.
Qed.
Lemma truediv_exact a b : Z.abs a <= 2 ^ 53 -> b <> 0 -> f8_truediv a b = Ok (Z.quot a b).
Proof.
  intros Ha Hb. unfold f8_truediv. destruct (int_truediv_spec a b Hb) as [(f & -> & F & _)|[O _]].
  - cbn [rbind]. rewrite (py_int_spec _ _ F). f_equal. apply trunc_div; assumption.
  - exfalso. unfold overflows in O. pose proof (div_no_overflow a b Ha Hb). lra.
Qed.

(** ** Ceil, Floor, ToInt *)
Lemma near v : Z.abs v <= 2 ^ 27 * D -> v mod D <> 0 -> (IZR (v / D) < rnd64 (IZR v / IZR D) < IZR (v / D + 1))%R.
Proof.
  intros Hv Hm. pose proof (Z.div_mod v D ltac:(unfold D; lia)) as E. pose proof (Z.mod_pos_bound v D ltac:(unfold D; lia)) as M.
  set (k := v / D) in *. set (q := (IZR v / IZR D)%R). assert (HD : IZR D = 100000000%R) by reflexivity.
  assert (Hq : (q * 100000000 = IZR v)%R) by (unfold q; rewrite HD; field).
  assert (Hlo : (q * 100000000 - IZR k * 100000000 >= 1)%R).
  { rewrite Hq. apply Rle_ge. rewrite <- mult_IZR, <- minus_IZR. apply IZR_le. unfold D in *. lia. }
  assert (Hhi : (IZR (k + 1) * 100000000 - q * 100000000 >= 1)%R).
  { rewrite Hq. apply Rle_ge. rewrite <- mult_IZR, <- minus_IZR. apply IZR_le. unfold D in *. lia. }
  assert (Habs : (Rabs q <= 134217728)%R).
  { unfold q, Rdiv. rewrite Rabs_mult, <- abs_IZR. rewrite HD. rewrite (Rabs_right (/ 100000000)) by lra.
    assert (IZR (Z.abs v) <= 13421772800000000)%R by (apply IZR_le; unfold D in Hv; lia). lra. }
  assert (Hu : (ulp radix2 (FLT_exp (-1074) 53) q <= / 67108864)%R).
  { change (/ 67108864)%R with (bpow radix2 (-26)).
    destruct (Req_dec q 0) as [Z0|NZ]; [rewrite Z0, ulp_FLT_0 by auto with typeclass_instances; apply bpow_le; lia|].
    destruct (Req_dec (Rabs q) 134217728) as [Eq|Ne].
    { exfalso. assert (C : exists n, q = IZR n) by (destruct (Rle_dec 0 q) as [P|P]; [exists 134217728|exists (-134217728)]; [rewrite Rabs_right in Eq by lra|rewrite Rabs_left in Eq by lra]; lra).
      destruct C as [n Hn]. rewrite Hn in Hlo, Hhi. rewrite <- !mult_IZR, <- minus_IZR in Hlo, Hhi. apply Rge_le, le_IZR in Hlo. apply Rge_le, le_IZR in Hhi. lia. }
    rewrite ulp_neq_0 by exact NZ. apply bpow_le. unfold cexp, FLT_exp.
    assert (mag radix2 q <= 27)%Z; [|lia]. apply mag_le_bpow; [exact NZ|]. change (bpow radix2 27) with 134217728%R. lra. }
  pose proof (rnd64_err q) as Herr. apply Rabs_le_inv in Herr. lra.
Qed.
Lemma cfi_exact v : Z.abs v <= 2 ^ 27 * D ->
  Zfloor (rnd64 (IZR v / IZR D)) = v / D /\ Zceil (rnd64 (IZR v / IZR D)) = - ((- v) / D) /\ Ztrunc (rnd64 (IZR v / IZR D)) = Z.quot v D.
Proof.
  intros Hv. assert (HD : IZR D = 100000000%R) by reflexivity. pose proof (Z.div_mod v D ltac:(unfold D; lia)) as E.
  destruct (Z.eq_dec (v mod D) 0) as [M|M].
  - assert (IZR v / IZR D = IZR (v / D))%R as ->.
    { rewrite E at 1. rewrite M, Z.add_0_r, mult_IZR. rewrite HD. field. }
    rewrite rnd64_int by (unfold D in *; lia). rewrite Zfloor_IZR, Zceil_IZR, Ztrunc_IZR. split; [reflexivity|].
    assert (Ev : v = v / D * D) by lia. split.
    + rewrite Ev at 2. rewrite <- Z.mul_opp_l, Z.div_mul by (unfold D; lia). lia.
    + rewrite Ev at 2. rewrite Z.quot_mul by (unfold D; lia). reflexivity.
  - pose proof (near v Hv M) as [L U]. pose proof (Z.mod_pos_bound v D ltac:(unfold D; lia)) as B.
    assert (Fl : Zfloor (rnd64 (IZR v / IZR D)) = v / D) by (apply Zfloor_imp; lra).
    assert (Ce : Zceil (rnd64 (IZR v / IZR D)) = v / D + 1) by (apply Zceil_imp; replace (v / D + 1 - 1) with (v / D) by lia; lra).
    assert (No : (- v) / D = - (v / D) - 1) by (symmetry; apply Z.div_unique with (D - v mod D); unfold D in *; lia).
    split; [exact Fl|]. split; [lia|]. destruct (Z.le_gt_cases 0 v) as [P|P].
    + rewrite Z.quot_div_nonneg by (unfold D; lia). rewrite <- Fl. apply Ztrunc_floor. assert (0 <= v / D) by (apply Z.div_pos; unfold D; lia).
      apply IZR_le in H. lra.
    + replace v with (- (- v)) at 2 by lia. rewrite Z.quot_opp_l, Z.quot_div_nonneg by (unfold D; lia). rewrite No.
      rewrite Ztrunc_ceil; [lia|]. assert (v / D + 1 <= 0) by (unfold D in *; lia). apply IZR_le in H. lra.
Qed.
Lemma fdiv_D v : Z.abs v <= 2 ^ 27 * D -> exists f, int_truediv v D = Ok f /\ float_is f (rnd64 (IZR v / IZR D)).
Proof.
  intros Hv. assert (HD : D <> 0) by (unfold D; lia). destruct (int_truediv_spec v D HD) as [(f & H & F & _)|[O _]]; [eauto|].
  exfalso. unfold overflows in O. assert (HDr : IZR D = 100000000%R) by reflexivity.
  assert (Rabs (rnd64 (IZR v / IZR D)) <= IZR (2 ^ 53))%R; [|pose proof bpow_1024_big; lra].
  assert (Q : (Rabs (IZR v / IZR D) <= 134217728)%R).
  { unfold Rdiv. rewrite Rabs_mult, <- abs_IZR, HDr. rewrite (Rabs_right (/ 100000000)) by lra.
    assert (IZR (Z.abs v) <= 13421772800000000)%R by (apply IZR_le; unfold D in Hv; lia). lra. }
  assert (134217728 <= IZR (2 ^ 53))%R by (apply IZR_le; lia).
  apply Rabs_le. apply Rabs_le_inv in Q. rewrite <- opp_IZR. split; [apply rnd64_ge|apply rnd64_le]; try lia; try lra.
  rewrite opp_IZR. lra.
Qed.
Lemma Floor_exact v : Z.abs v <= 2 ^ 27 * D -> Floor v = Ok (v / D * D).
Proof. intros H. unfold Floor. destruct (fdiv_D v H) as (f & -> & F). cbn [rbind]. rewrite (py_floor_spec _ _ F). cbn [rbind]. destruct (cfi_exact v H) as (-> & _ & _). reflexivity. Qed.
Lemma Ceil_exact v : Z.abs v <= 2 ^ 27 * D -> Ceil v = Ok (- ((- v) / D) * D).
Proof. intros H. unfold Ceil. destruct (fdiv_D v H) as (f & -> & F). cbn [rbind]. rewrite (py_ceil_spec _ _ F). cbn [rbind]. destruct (cfi_exact v H) as (_ & -> & _). reflexivity. Qed.
Lemma ToInt_exact v : Z.abs v <= 2 ^ 27 * D -> ToInt v = Ok (Z.quot v D).
Proof. intros H. unfold ToInt. destruct (fdiv_D v H) as (f & -> & F). cbn [rbind]. rewrite (py_int_spec _ _ F). destruct (cfi_exact v H) as (_ & _ & ->). reflexivity. Qed.
