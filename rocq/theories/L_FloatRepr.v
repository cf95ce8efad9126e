(** * L_FloatRepr: shortest decimals that read back *)
From Coq Require Import String Reals Lia Lra Floats.SpecFloat.
From Flocq Require Import Core BinarySingleNaN.
From Verif Require Import M_Py M_Float M_Fixed8 M_FloatRepr S_Float S_Fixed8 L_Float L_Fixed8 L_Fixed8b L_FloatIO.
Open Scope Z_scope.

Local Instance Hprec53' : FLX.Prec_gt_0 53 := eq_refl _.
Local Instance Hmax53' : Prec_lt_emax 53 1024 := eq_refl _.
Definition radix10 : radix := Build_radix 10 eq_refl.

(** float_of_fraction depends on the value only *)
Lemma fraction_finite s n d m e : 0 <= n -> 0 < d -> bounded 53 1024 m e = true ->
  rnd64 (IZR n / IZR d) = SF2R radix2 (S754_finite false m e) -> float_of_fraction s n d = S754_finite s m e.
Proof.
  intros Hn Hd B R. pose proof (float_of_fraction_spec s n d Hn Hd) as [V H].
  assert (R' : rnd64 ((if s then -1 else 1) * (IZR n / IZR d)) = SF2R radix2 (S754_finite s m e)).
  { destruct s.
    - replace (-1 * (IZR n / IZR d))%R with (- (IZR n / IZR d))%R by ring. rewrite rnd64_opp, R.
      rewrite <- (SF2R_negb false). reflexivity.
    - rewrite Rmult_1_l. exact R. }
  destruct H as [(H1 & H2 & H3 & H4)|[O _]].
  - apply (SF_inj 53 1024 Hprec53' Hmax53'); [exact V|exact B|exact H3|reflexivity|congruence|exact H4].
  - exfalso. unfold overflows in O. rewrite R' in O. apply (Rle_not_lt _ _ O).
    pose proof (abs_B2R_lt_emax 53 1024 (SF2B (S754_finite s m e) B)) as K. rewrite B2R_SF2B in K. exact K.
Qed.
Lemma fraction_finite_inv s n d s' m e : 0 <= n -> 0 < d -> float_of_fraction s n d = S754_finite s' m e ->
  bounded 53 1024 m e = true /\ s' = s /\ rnd64 (IZR n / IZR d) = SF2R radix2 (S754_finite false m e).
Proof.
  intros Hn Hd E. pose proof (float_of_fraction_spec s n d Hn Hd) as [V H]. rewrite E in V, H.
  split; [exact V|]. destruct H as [(H1 & H2 & H3 & H4)|[_ O]]; [|discriminate].
  cbn [sign_SF] in H4. split; [exact H4|]. subst s'. destruct s.
  - replace (-1 * (IZR n / IZR d))%R with (- (IZR n / IZR d))%R in H2 by ring. rewrite rnd64_opp in H2.
    change true with (negb false) in H2. rewrite SF2R_negb in H2. lra.
  - rewrite Rmult_1_l in H2. congruence.
Qed.

(** ** d 10^k *)
Definition dval (d k : Z) : R := (IZR d * bpow radix10 k)%R.
Lemma pow10_pos k : 0 <= k -> 0 < 10 ^ k.
Proof. intros H. apply Z.pow_pos_nonneg; lia. Qed.
Lemma IZR_10 k : 0 <= k -> IZR (10 ^ k) = bpow radix10 k.
Proof. apply (IZR_Zpower radix10). Qed.
Lemma IZR_2 k : 0 <= k -> IZR (2 ^ k) = bpow radix2 k.
Proof. apply (IZR_Zpower radix2). Qed.
Lemma dval_fraction d k : (IZR (d * 10 ^ Z.max 0 k) / IZR (10 ^ Z.max 0 (- k)))%R = dval d k.
Proof.
  unfold dval. rewrite mult_IZR. destruct (Z.le_gt_cases 0 k) as [H|H].
  - rewrite (Z.max_r 0 k), (Z.max_l 0 (- k)) by lia. change (10 ^ 0) with 1. rewrite (IZR_10 k) by lia. field.
  - rewrite (Z.max_l 0 k), (Z.max_r 0 (- k)) by lia. change (10 ^ 0) with 1. rewrite (IZR_10 (- k)) by lia.
    rewrite bpow_opp. field. pose proof (bpow_gt_0 radix10 k). apply Rgt_not_eq. exact H0.
Qed.
Lemma reads_iff m e d k : 0 <= d -> bounded 53 1024 m e = true ->
  reads_back m e d k = true <-> rnd64 (dval d k) = SF2R radix2 (S754_finite false m e).
Proof.
  intros Hd B. rewrite <- dval_fraction. pose proof (pow10_pos (Z.max 0 k) ltac:(lia)). pose proof (pow10_pos (Z.max 0 (- k)) ltac:(lia)) as Hp.
  assert (Hn : 0 <= d * 10 ^ Z.max 0 k) by nia. unfold reads_back. split.
  - destruct (float_of_fraction _ _ _) as [s|s| |s m' e'] eqn:E; try discriminate. destruct s; [discriminate|]. intros Q.
    apply andb_true_iff in Q as [Q1 Q2]. apply Pos.eqb_eq in Q1. apply Z.eqb_eq in Q2. subst. exact (proj2 (proj2 (fraction_finite_inv _ _ _ _ _ _ Hn Hp E))).
  - intros R. rewrite (fraction_finite false _ _ m e Hn Hp B R). rewrite Pos.eqb_refl, Z.eqb_refl. reflexivity.
Qed.
Lemma dval_nonneg d k : 0 <= d -> (0 <= dval d k)%R.
Proof. intros H. apply Rmult_le_pos; [apply IZR_le; lia|apply bpow_ge_0]. Qed.
Lemma dval_le a b k : a <= b -> (dval a k <= dval b k)%R.
Proof. intros H. apply Rmult_le_compat_r; [apply bpow_ge_0|apply IZR_le, H]. Qed.
Lemma dval_shift d k j : 0 <= j -> dval (d * 10 ^ j) k = dval d (k + j).
Proof. intros H. unfold dval. rewrite mult_IZR, bpow_plus, (IZR_10 j) by lia. ring. Qed.

(** ** the search *)
Section Search.
Variables (m : positive) (e : Z).
Hypothesis B : bounded 53 1024 m e = true.
Let x := SF2R radix2 (S754_finite false m e).
Let lo k := Zpos m * 2 ^ Z.max 0 e * 10 ^ Z.max 0 (- k) / (2 ^ Z.max 0 (- e) * 10 ^ Z.max 0 k).
Lemma x_eq k : x = (dval 1 k * (IZR (Zpos m * 2 ^ Z.max 0 e * 10 ^ Z.max 0 (- k)) / IZR (2 ^ Z.max 0 (- e) * 10 ^ Z.max 0 k)))%R.
Proof.
  unfold x. rewrite SF2R_finite, Rmult_1_l. rewrite <- dval_fraction, Z.mul_1_l, !mult_IZR.
  pose proof (pow10_pos (Z.max 0 k) ltac:(lia)) as H1. pose proof (pow10_pos (Z.max 0 (- k)) ltac:(lia)) as H2.
  assert (H3 : 0 < 2 ^ Z.max 0 e) by (apply Z.pow_pos_nonneg; lia). assert (H4 : 0 < 2 ^ Z.max 0 (- e)) by (apply Z.pow_pos_nonneg; lia).
  assert (E : bpow radix2 e = (IZR (2 ^ Z.max 0 e) / IZR (2 ^ Z.max 0 (- e)))%R).
  { destruct (Z.le_gt_cases 0 e).
    - rewrite (Z.max_r 0 e), (Z.max_l 0 (- e)) by lia. change (2 ^ 0) with 1. rewrite (IZR_2 e) by lia. field.
    - rewrite (Z.max_l 0 e), (Z.max_r 0 (- e)) by lia. change (2 ^ 0) with 1. rewrite (IZR_2 (- e)) by lia. rewrite bpow_opp.
      field. apply Rgt_not_eq, bpow_gt_0. }
  rewrite E. apply IZR_lt in H1, H2, H3, H4. field. lra.
Qed.
Lemma lo_spec k : 0 <= lo k /\ (dval (lo k) k <= x < dval (lo k + 1) k)%R.
Proof.
  pose proof (pow10_pos (Z.max 0 k) ltac:(lia)) as H1. pose proof (pow10_pos (Z.max 0 (- k)) ltac:(lia)) as H2.
  assert (H3 : 0 < 2 ^ Z.max 0 e) by (apply Z.pow_pos_nonneg; lia). assert (H4 : 0 < 2 ^ Z.max 0 (- e)) by (apply Z.pow_pos_nonneg; lia).
  rewrite (x_eq k). unfold lo. set (n := Zpos m * _ * _). set (d := _ * _). assert (Hd : 0 < d) by (unfold d; nia). assert (Hn : 0 <= n) by (unfold n; nia).
  split; [apply Z.div_pos; lia|].
  assert (Q1 : dval 1 k = bpow radix10 k) by (unfold dval; ring). rewrite Q1. unfold dval. rewrite (Rmult_comm (bpow radix10 k)).
  pose proof (bpow_gt_0 radix10 k) as Hp. pose proof (Z.mul_div_le n d Hd). pose proof (Z.mul_succ_div_gt n d Hd).
  apply IZR_lt in Hd. split.
  - apply Rmult_le_compat_r; [lra|]. apply Rmult_le_reg_r with (IZR d); [lra|]. unfold Rdiv. rewrite Rmult_assoc, Rinv_l, Rmult_1_r by lra.
    rewrite <- mult_IZR. apply IZR_le. lia.
  - apply Rmult_lt_compat_r; [lra|]. apply Rmult_lt_reg_r with (IZR d); [lra|]. unfold Rdiv. rewrite Rmult_assoc, Rinv_l, Rmult_1_r by lra.
    rewrite <- mult_IZR. apply IZR_lt. lia.
Qed.
Lemma rnd_x : rnd64 x = x.
Proof.
  apply round_generic; [typeclasses eauto|]. unfold x. pose proof (generic_format_B2R 53 1024 (SF2B (S754_finite false m e) B)) as G.
  rewrite B2R_SF2B in G. exact G.
Qed.
(** anything that reads back at k is no better than the two candidates *)
Lemma candidates k d : 0 <= d -> rnd64 (dval d k) = x -> reads_back m e (lo k) k = true \/ reads_back m e (lo k + 1) k = true.
Proof.
  intros Hd R. destruct (lo_spec k) as [L0 [L1 L2]]. rewrite !reads_iff by (lia || exact B). fold x. destruct (Z.le_gt_cases d (lo k)) as [H|H].
  - left. apply Rle_antisym.
    + rewrite <- rnd_x. apply rnd64_mono. exact L1.
    + rewrite <- R. apply rnd64_mono, dval_le, H.
  - right. apply Rle_antisym.
    + rewrite <- R. apply rnd64_mono, dval_le. lia.
    + rewrite <- rnd_x. apply rnd64_mono. lra.
Qed.
Definition good (r : Z * Z) : Prop := 0 < fst r /\ rnd64 (dval (fst r) (snd r)) = x.
Lemma x_pos : (0 < x)%R.
Proof. unfold x. rewrite SF2R_finite, Rmult_1_l. apply Rmult_lt_0_compat; [apply IZR_lt; lia|apply bpow_gt_0]. Qed.
Lemma good_of d k : 0 <= d -> reads_back m e d k = true -> good (d, k).
Proof.
  intros Hd H. apply reads_iff in H; [|exact Hd|exact B]. split; [|exact H]. cbn [fst]. destruct (Z.eq_dec d 0) as [->|]; [|lia].
  exfalso. unfold dval in H. rewrite Rmult_0_l in H. assert (Z0 : rnd64 0 = 0%R) by (unfold rnd64; apply round_0; auto with typeclass_instances).
  rewrite Z0 in H. pose proof x_pos. unfold x in *. lra.
Qed.
(** the last k always works *)
Lemma last_exact : reads_back m e (lo (Z.min 0 e)) (Z.min 0 e) = true.
Proof.
  set (k := Z.min 0 e). destruct (lo_spec k) as [L0 _]. apply reads_iff; [exact L0|exact B|]. fold x. transitivity (rnd64 x); [|exact rnd_x]. f_equal.
  rewrite (x_eq k). unfold dval. rewrite Rmult_1_l, Rmult_comm. f_equal.
  unfold lo. destruct (Z.le_gt_cases 0 e).
  - assert (k = 0) as -> by (unfold k; lia). rewrite (Z.max_l 0 (- e)) by lia. change (2 ^ 0 * 10 ^ Z.max 0 0) with 1. rewrite Z.div_1_r. field.
  - assert (k = e) as -> by (unfold k; lia). rewrite (Z.max_l 0 e), (Z.max_r 0 (- e)) by lia. change (2 ^ 0) with 1. change (10 ^ 0) with 1.
    change 10 with (2 * 5). rewrite Z.pow_mul_l. assert (H4 : 0 < 2 ^ (- e)) by (apply Z.pow_pos_nonneg; lia).
    replace (Zpos m * 1 * (2 ^ (- e) * 5 ^ (- e))) with (Zpos m * 5 ^ (- e) * (2 ^ (- e))) by ring. rewrite Z.mul_1_r.
    rewrite Z.div_mul by lia. rewrite (mult_IZR _ (2 ^ (- e))). apply IZR_lt in H4. field. lra.
Qed.
(** nearest among those with the same k that read back *)
Definition nearest (r : Z * Z) : Prop := forall d, 0 <= d -> rnd64 (dval d (snd r)) = x ->
  (Rabs (dval (fst r) (snd r) - x) <= Rabs (dval d (snd r) - x))%R.
Lemma below k d : d <= lo k -> (dval d k <= dval (lo k) k <= x)%R.
Proof. intros H. pose proof (dval_le _ _ k H). pose proof (proj2 (lo_spec k)). lra. Qed.
Lemma above k d : lo k < d -> (x < dval (lo k + 1) k <= dval d k)%R.
Proof. intros H. pose proof (dval_le (lo k + 1) d k ltac:(lia)). pose proof (proj2 (lo_spec k)). lra. Qed.
Lemma lo_reads k d : 0 <= d <= lo k -> rnd64 (dval d k) = x -> reads_back m e (lo k) k = true.
Proof.
  intros H R. apply reads_iff; [lia|exact B|]. fold x. pose proof (below k d ltac:(lia)). apply Rle_antisym.
  - rewrite <- rnd_x. apply rnd64_mono. lra.
  - rewrite <- R. apply rnd64_mono. lra.
Qed.
Lemma hi_reads k d : lo k < d -> rnd64 (dval d k) = x -> reads_back m e (lo k + 1) k = true.
Proof.
  intros H R. pose proof (lo_spec k). apply reads_iff; [lia|exact B|]. fold x. pose proof (above k d ltac:(lia)). apply Rle_antisym.
  - rewrite <- R. apply rnd64_mono. lra.
  - rewrite <- rnd_x. apply rnd64_mono. lra.
Qed.
Lemma nearest_lo k : reads_back m e (lo k + 1) k = false -> nearest (lo k, k).
Proof.
  intros HH d Hd R. cbn [fst snd] in *. destruct (Z.le_gt_cases d (lo k)) as [H|H].
  - pose proof (below k d H). rewrite !Rabs_left1 by lra. lra.
  - rewrite (hi_reads k d H R) in HH. discriminate.
Qed.
Lemma nearest_hi k : reads_back m e (lo k) k = false -> nearest (lo k + 1, k).
Proof.
  intros HH d Hd R. cbn [fst snd] in *. destruct (Z.le_gt_cases d (lo k)) as [H|H].
  - rewrite (lo_reads k d (conj Hd H) R) in HH. discriminate.
  - pose proof (above k d H). rewrite !Rabs_right by lra. lra.
Qed.
Lemma nearest_both k : let num := Zpos m * 2 ^ Z.max 0 e * 10 ^ Z.max 0 (- k) in let den := 2 ^ Z.max 0 (- e) * 10 ^ Z.max 0 k in
  (2 * (num mod den) <= den -> nearest (lo k, k)) /\ (den <= 2 * (num mod den) -> nearest (lo k + 1, k)).
Proof.
  intros num den. pose proof (pow10_pos (Z.max 0 k) ltac:(lia)) as H1. pose proof (pow10_pos (Z.max 0 (- k)) ltac:(lia)) as H2.
  assert (H3 : 0 < 2 ^ Z.max 0 e) by (apply Z.pow_pos_nonneg; lia). assert (H4 : 0 < 2 ^ Z.max 0 (- e)) by (apply Z.pow_pos_nonneg; lia).
  assert (Hd : 0 < den) by (unfold den; nia).
  assert (X : x = (dval (lo k) k + dval 1 k * (IZR (num mod den) / IZR den))%R).
  { rewrite (x_eq k). fold num den. unfold lo. fold num den. rewrite (Z.div_mod num den) at 1 by lia. rewrite plus_IZR, mult_IZR. unfold dval.
    apply IZR_lt in Hd. field. lra. }
  assert (S1 : dval (lo k + 1) k = (dval (lo k) k + dval 1 k)%R) by (unfold dval; rewrite plus_IZR; ring).
  assert (P : (0 < dval 1 k)%R) by (unfold dval; rewrite Rmult_1_l; apply bpow_gt_0).
  pose proof (Z.mod_pos_bound num den Hd) as Hm. assert (Hd' := IZR_lt _ _ Hd).
  set (t := (IZR (num mod den) / IZR den)%R) in *. assert (T : (0 <= t)%R) by (apply Rmult_le_pos; [apply IZR_le; lia|apply Rlt_le, Rinv_0_lt_compat; lra]).
  split; intros Hr d Hdd R; cbn [fst snd].
  - assert (T2 : (2 * t <= 1)%R). { unfold t. apply Rmult_le_reg_r with (IZR den); [lra|]. unfold Rdiv. rewrite Rmult_1_l. apply IZR_le in Hr. rewrite mult_IZR in Hr.
      replace (2 * (IZR (num mod den) * / IZR den) * IZR den)%R with (2 * IZR (num mod den))%R by (field; lra). exact Hr. }
    destruct (Z.le_gt_cases d (lo k)) as [H|H].
    + pose proof (below k d H). rewrite !Rabs_left1 by lra. lra.
    + pose proof (above k d H). pose proof (below k (lo k) ltac:(lia)). rewrite Rabs_left1, Rabs_right by lra.
      assert (dval 1 k * t * 2 <= dval 1 k)%R by nra. lra.
  - assert (T2 : (1 <= 2 * t)%R). { unfold t. apply Rmult_le_reg_r with (IZR den); [lra|]. unfold Rdiv. rewrite Rmult_1_l. apply IZR_le in Hr. rewrite mult_IZR in Hr.
      replace (2 * (IZR (num mod den) * / IZR den) * IZR den)%R with (2 * IZR (num mod den))%R by (field; lra). exact Hr. }
    pose proof (above k (lo k + 1) ltac:(lia)). destruct (Z.le_gt_cases d (lo k)) as [H0|H0].
    + pose proof (below k d H0). rewrite Rabs_right, Rabs_left1 by lra. assert (dval 1 k <= dval 1 k * t * 2)%R by nra. lra.
    + pose proof (above k d H0). rewrite !Rabs_right by lra. lra.
Qed.
Lemma both_choice k : reads_back m e (lo k) k = true -> reads_back m e (lo k + 1) k = true ->
  let num := Zpos m * 2 ^ Z.max 0 e * 10 ^ Z.max 0 (- k) in let den := 2 ^ Z.max 0 (- e) * 10 ^ Z.max 0 k in let r := num mod den in
  let d := if 2 * r <? den then lo k else if den <? 2 * r then lo k + 1 else if Z.even (lo k) then lo k else lo k + 1 in
  good (d, k) /\ nearest (d, k).
Proof.
  intros HL HH num den r d. pose proof (lo_spec k) as [L0 _]. destruct (nearest_both k) as [N1 N2]. fold num den r in N1, N2.
  assert (G1 : good (lo k, k)) by (apply good_of; assumption). assert (G2 : good (lo k + 1, k)) by (apply good_of; (assumption || lia)).
  unfold d. destruct (Z.ltb_spec (2 * r) den); [split; [exact G1|apply N1; lia]|]. destruct (Z.ltb_spec den (2 * r)); [split; [exact G2|apply N2; lia]|].
  destruct (Z.even (lo k)); [split; [exact G1|apply N1; lia]|split; [exact G2|apply N2; lia]].
Qed.
Lemma search_spec fuel : forall k, k - Z.of_nat fuel = Z.min 0 e -> let r := shortest_from fuel m e k in
  good r /\ nearest r /\ Z.min 0 e <= snd r <= k /\ forall k' d, k' <= k -> 0 <= d -> rnd64 (dval d k') = x -> k' <= snd r.
Proof.
  induction fuel as [|f IH]; intros k Hk r.
  - assert (k = Z.min 0 e) as -> by lia. pose proof last_exact as HL. destruct (lo_spec (Z.min 0 e)) as [L0 _]. unfold r, shortest_from.
    fold (lo (Z.min 0 e)). rewrite HL. destruct (reads_back m e (lo (Z.min 0 e) + 1) (Z.min 0 e)) eqn:HH.
    + pose proof (both_choice _ HL HH) as [G N]. split; [exact G|]. split; [exact N|]. cbn [snd]; split; [lia|intros; lia].
    + split; [apply good_of; assumption|]. split; [apply nearest_lo, HH|]. cbn [snd]; split; [lia|intros; lia].
  - destruct (lo_spec k) as [L0 _]. unfold r. cbn [shortest_from]. fold (lo k).
    destruct (reads_back m e (lo k) k) eqn:HL, (reads_back m e (lo k + 1) k) eqn:HH.
    + pose proof (both_choice _ HL HH) as [G N]. split; [exact G|]. split; [exact N|]. cbn [snd]; split; [lia|intros; lia].
    + split; [apply good_of; assumption|]. split; [apply nearest_lo, HH|]. cbn [snd]; split; [lia|intros; lia].
    + split; [apply good_of; (assumption || lia)|]. split; [apply nearest_hi, HL|]. cbn [snd]; split; [lia|intros; lia].
    + destruct (IH (k - 1) ltac:(lia)) as (G & N & [K1 K2] & M). split; [exact G|]. split; [exact N|]. split; [lia|]. intros k' d Hk' Hd R.
      destruct (Z.eq_dec k' k) as [->|]; [|apply (M k' d); (lia || assumption)].
      destruct (candidates k d Hd R); congruence.
Qed.
(** the first k is large enough *)
Lemma x_lt_2 : (x < bpow radix2 (Zpos (digits2_pos m) + e))%R.
Proof.
  unfold x. rewrite SF2R_finite, Rmult_1_l, bpow_plus. apply Rmult_lt_compat_r; [apply bpow_gt_0|].
  rewrite <- IZR_2 by lia. apply IZR_lt. rewrite Digits.Zpos_digits2_pos.
  pose proof (Digits.Zdigits_correct radix2 (Zpos m)) as [_ H]. change (Z.abs (Zpos m)) with (Zpos m) in H. exact H.
Qed.
Lemma start_large : let j := Zpos (digits2_pos m) + e in let k := if 0 <=? j then j / 3 + 1 else - ((- j) / 4) in
  (x < dval 1 k)%R /\ Z.min 0 e <= k.
Proof.
  intros j k. pose proof x_lt_2 as H. fold j in H. unfold dval. rewrite Rmult_1_l. unfold k. destruct (Z.leb_spec 0 j) as [Hj|Hj].
  - pose proof (Z.div_pos j 3 Hj ltac:(lia)) as P. pose proof (Z.mul_succ_div_gt j 3 ltac:(lia)) as Q. split; [|lia].
    eapply Rlt_le_trans; [exact H|]. rewrite <- IZR_2, <- IZR_10 by lia. apply IZR_le.
    apply Z.le_trans with (2 ^ (3 * (j / 3 + 1))); [apply Z.pow_le_mono_r; lia|]. rewrite Z.pow_mul_r by lia. change (2 ^ 3) with 8. apply Z.pow_le_mono_l. lia.
  - set (i := - j) in *. assert (Hi : 0 < i) by (unfold i; lia). pose proof (Z.div_pos i 4 ltac:(lia) ltac:(lia)) as P. pose proof (Z.mul_div_le i 4 ltac:(lia)) as Q. split.
    2:{ assert (e < j) by (unfold j; lia). lia. }
    eapply Rlt_le_trans; [exact H|]. replace j with (- i) by (unfold i; lia). rewrite !bpow_opp. apply Rinv_le_contravar; [apply bpow_gt_0|].
    rewrite <- IZR_2, <- IZR_10 by lia. apply IZR_le. apply Z.le_trans with (2 ^ (4 * (i / 4))); [|apply Z.pow_le_mono_r; lia].
    rewrite Z.pow_mul_r by lia. change (2 ^ 4) with 16. apply Z.pow_le_mono_l. lia.
Qed.
Lemma shortest_spec : let '(d, k) := shortest m e in
  0 < d /\ rnd64 (dval d k) = x /\
  (forall d' k', 0 <= d' -> rnd64 (dval d' k') = x -> k' <= k) /\
  (forall d', 0 <= d' -> rnd64 (dval d' k) = x -> (Rabs (dval d k - x) <= Rabs (dval d' k - x))%R).
Proof.
  unfold shortest. pose proof start_large as S. cbv zeta in S. set (K := if _ <=? _ then _ else _) in *. destruct S as [S1 S2].
  pose proof (search_spec (Z.to_nat (K - Z.min 0 e)) K ltac:(lia)) as H. cbv zeta in H. destruct (shortest_from _ m e K) as [d k]. cbn [fst snd] in H.
  destruct H as ([G1 G2] & N & [K1 K2] & M). cbn [fst snd] in *. split; [exact G1|]. split; [exact G2|]. split; [|exact N].
  intros d' k' Hd' R. destruct (Z.le_gt_cases k' K) as [H|H]; [exact (M k' d' H Hd' R)|].
  assert (Hd1 : 0 < d'). { destruct (Z.eq_dec d' 0) as [->|]; [|lia]. exfalso. unfold dval in R. rewrite Rmult_0_l in R.
    assert (Z0 : rnd64 0 = 0%R) by (unfold rnd64; apply round_0; auto with typeclass_instances). rewrite Z0 in R. pose proof x_pos. lra. }
  exfalso.
  assert (D2 : rnd64 (2 * x) = (2 * x)%R).
  { apply round_generic; [typeclasses eauto|]. pose proof B as B'. apply (bounded_iff 53 1024) in B'; [|lia]. apply generic_format_FLT.
    exists (Float radix2 (Zpos m) (e + 1)).
    - unfold x. rewrite SF2R_finite. unfold F2R, Fnum, Fexp. rewrite bpow_plus. change (bpow radix2 1) with 2%R. ring.
    - cbn [Fnum]. change (radix2 ^ 53) with (2 ^ 53). lia.
    - cbn [Fexp]. lia. }
  assert (L : (10 * dval 1 K <= dval d' k')%R).
  { replace k' with (K + 1 + (k' - K - 1)) by lia. rewrite <- dval_shift by lia.
    apply Rle_trans with (dval 1 (K + 1)); [|apply dval_le; pose proof (pow10_pos (k' - K - 1) ltac:(lia)); nia].
    rewrite <- dval_shift by lia. change (1 * 10 ^ 1) with 10. unfold dval. lra. }
  pose proof x_pos as XP. assert (rnd64 (2 * x) <= rnd64 (dval d' k'))%R by (apply rnd64_mono; lra). rewrite D2, R in H0. lra.
Qed.
End Search.
