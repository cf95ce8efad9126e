(** * P_Group: the group law and scalar multiplication (C85-C88) *)
From Coq Require Import ZArith Znumtheory Lia Bool List.
From Verif Require Import M_Py M_Float M_ECCurve L_Float L_Field S_EC S_Group L_EC L_EC2 L_EC3 L_Prime L_Prime2 L_Mul L_Mul2 L_Fp2 L_Mult L_Chain L_Order L_Wrong P_EC P_Mul.
Import ListNotations.
Open Scope Z_scope.

(** ** C85 *)
(** the points of an elliptic curve form a commutative group under P + Q *)
Theorem C85_group : forall c, elliptic c ->
  (forall P Q, point_of c P -> point_of c Q -> point_of c (ec_add c P Q)) /\
  (forall P Q R, point_of c P -> point_of c Q -> point_of c R -> ec_add c (ec_add c P Q) R = ec_add c P (ec_add c Q R)) /\
  (forall P Q, point_of c P -> point_of c Q -> ec_add c P Q = ec_add c Q P) /\
  (forall P, point_of c P -> ec_add c P (0, 0) = P /\ ec_add c (0, 0) P = P) /\
  (forall P, point_of c P -> exists N, point_of c N /\ ec_add c P N = (0, 0)).
Proof.
  intros c E. split; [apply add_pt, E|]. split; [apply assoc, E|]. split; [apply comm, E|]. split; [intros P _; split; [apply add_inf|reflexivity]|].
  intros P HP. destruct E as (Hp & H2 & _). destruct HP as [C [->|Q]]; [exists (0, 0); split; [split; [split; cbn; lia|left; reflexivity]|reflexivity]|].
  destruct P as [x y]. cbn [fst snd] in *. destruct C as [CX CY]. cbn [fst snd] in CX, CY. destruct (Z.eq_dec y 0) as [->|N].
  - exists (x, 0). split; [split; [split; cbn; lia|right; exact Q]|]. unfold ec_add. cbn [fst snd]. destruct (iszero (x, 0)) eqn:I; [apply iszero_iff in I; exact I|].
    assert (point_eq c (x, 0) (x, 0) = true) as -> by (apply point_eq_iff; [lia|split; reflexivity]). rewrite feq_refl by lia. reflexivity.
  - exists (x, c_p c - y). split.
    + split; [split; cbn; lia|right]. cbn [fst snd]. unfold equation, same in *. destruct Q as [k Q]. exists (k + c_p c - 2 * y). lia.
    + apply (proj1 (C65_opposite c (x, y) Hp H2 ltac:(split; cbn; lia) ltac:(intros X; apply N; congruence))).
Qed.
Print Assumptions C85_group.
Theorem C85_associative : forall c P Q R, elliptic c -> point_of c P -> point_of c Q -> point_of c R ->
  ec_add c (ec_add c P Q) R = ec_add c P (ec_add c Q R).
Proof. intros c P Q R E. apply assoc, E. Qed.
Print Assumptions C85_associative.
Theorem C85_cancel : forall c P P' Q, elliptic c -> point_of c P -> point_of c P' -> point_of c Q -> ec_add c P Q = ec_add c P' Q -> P = P'.
Proof. intros c P P' Q E. apply cancel, E. Qed.
Print Assumptions C85_cancel.
(** subtraction undoes addition and conversely, except for points of order two and infinity,
    whose negatives are not canonical *)
Theorem C85_subtract : forall c P Q, elliptic c -> point_of c P -> point_of c Q -> snd Q <> 0 ->
  ec_sub c (ec_add c P Q) Q = P /\ ec_add c (ec_sub c P Q) Q = P.
Proof.
  intros c P [x y] E HP HQ N. cbn [snd] in N. pose proof E as (Hp & H2 & _). destruct HQ as [[CX CY] [X|Q]]; [exfalso; apply N; congruence|]. cbn [fst snd] in CX, CY, Q.
  assert (HQ : point_of c (x, y)) by (split; [split; assumption|right; exact Q]).
  assert (HN : point_of c (ec_neg c (x, y))).
  { unfold ec_neg, fneg_. cbn [fst snd]. split; [split; cbn; lia|right]. cbn [fst snd]. unfold equation, same in *. destruct Q as [k Q]. exists (k + c_p c - 2 * y). lia. }
  assert (O : ec_add c (x, y) (ec_neg c (x, y)) = (0, 0)) by (apply (proj1 (C65_opposite c (x, y) Hp H2 ltac:(split; assumption) ltac:(intros X; apply N; congruence)))).
  unfold ec_sub. split; rewrite (assoc c E) by assumption; [|rewrite (comm c E (ec_neg c (x, y))) by assumption]; rewrite O; apply add_inf.
Qed.
Print Assumptions C85_subtract.
(** both curves that the code defines are such curves, and none of their points has snd = 0 *)
Theorem C85_named : elliptic secp256r1 /\ elliptic secp256k1 /\ point_of secp256r1 G256 /\ point_of secp256k1 G256k1 /\
  (forall c P, c = secp256r1 \/ c = secp256k1 -> point_of c P -> P <> (0, 0) -> snd P <> 0).
Proof.
  assert (N : forall p z, 0 < p -> (z mod p =? 0) = false -> ~ same p z 0).
  { intros p z Hp M S. apply Z.eqb_neq in M. apply M. destruct S as [k S]. rewrite Z.sub_0_r in S. rewrite S. apply Z.mod_mul. lia. }
  split; [|split; [|split; [|split]]].
  - split; [exact prime_p256|]. split; [reflexivity|]. split; apply N; vm_compute; reflexivity.
  - split; [exact prime_p256k1|]. split; [reflexivity|]. split; apply N; vm_compute; reflexivity.
  - destruct C60_example as [[C E] _]. split; [exact C|right; exact E].
  - split; [split; split; vm_compute; congruence|right]. apply L_Fermat.divide_mod_eq; vm_compute; reflexivity.
  - intros c P C [_ [->|E]] NZ; [tauto|]. destruct C as [-> | ->]; [exact (r1_y_nonzero _ _ E)|exact (k1_y_nonzero _ _ E)].
Qed.
Print Assumptions C85_named.
Example C85_example : let c := mkCurve 7 1 3 in elliptic c /\ point_of c (4, 1) /\ point_of c (5, 0) /\ point_of c (6, 1) /\
  ec_add c (ec_add c (4, 1) (5, 0)) (6, 1) = ec_add c (4, 1) (ec_add c (5, 0) (6, 1)) /\ ec_add c (ec_add c (4, 1) (5, 0)) (6, 1) = (6, 6).
Proof.
  assert (N : forall z, (z mod 7 =? 0) = false -> ~ same 7 z 0).
  { intros z M S. apply Z.eqb_neq in M. apply M. destruct S as [k S]. rewrite Z.sub_0_r in S. rewrite S. apply Z.mod_mul. lia. }
  cbn zeta. split; [|split; [|split; [|split]]].
  - split; [exact pr_7|]. split; [reflexivity|]. split; apply N; reflexivity.
  - split; [split; cbn; lia|right; apply L_Fermat.divide_mod_eq; reflexivity].
  - split; [split; cbn; lia|right; apply L_Fermat.divide_mod_eq; reflexivity].
  - split; [split; cbn; lia|right; apply L_Fermat.divide_mod_eq; reflexivity].
  - vm_compute. split; reflexivity.
Qed.

(** ** C86 *)
(** adding up doublings by binary digits multiplies by the number with those digits *)
Theorem C86_digits : forall c bits P, elliptic c -> point_of c P -> add_bits (ec_add c) bits (0, 0) P = multiple (ec_add c) (number bits) P.
Proof. intros c bits P E. apply add_bits_inf, E. Qed.
Print Assumptions C86_digits.
Lemma number_app l r : number (l ++ r) = number l + 2 ^ Z.of_nat (length l) * number r.
Proof.
  induction l as [|b l IH]; [cbn [app number length]; change (2 ^ Z.of_nat 0) with 1; lia|]. cbn [app number length]. rewrite IH, Nat2Z.inj_succ, Z.pow_succ_r by lia. ring.
Qed.
Lemma number_false a : number (repeat false a) = 0.
Proof. induction a as [|a IH]; cbn [repeat number]; [reflexivity|rewrite IH; reflexivity]. Qed.
Lemma number_true a : number (repeat true a) = 2 ^ Z.of_nat a - 1.
Proof. induction a as [|a IH]; [reflexivity|]. cbn [repeat number]. rewrite IH, Nat2Z.inj_succ, Z.pow_succ_r by lia. lia. Qed.
Lemma number_shape a b : number (repeat false a ++ repeat true b) = 2 ^ Z.of_nat (a + b) - 2 ^ Z.of_nat a.
Proof. rewrite number_app, number_false, number_true, repeat_length, Nat2Z.inj_add, Z.pow_add_r by lia. ring. Qed.
(** the effect of a small scalar: k = 2^t times an odd number acts as 2^(1074+n) - 2^t, with n
    the number of rounded halvings of k *)
Theorem C86_small : forall k t, 0 <= t -> (2 ^ t | k) -> ~ (2 ^ (t + 1) | k) -> Z.abs k < 2 ^ 53 -> exists n, halvings n (Z.abs k) /\
  forall c P, elliptic c -> point_of c P -> ec_mul c P (AInt k) = Ok (multiple (ec_add c) (2 ^ (1074 + Z.of_nat n) - 2 ^ t) P).
Proof.
  intros k t T D ND K. assert (N : k <> 0) by (intros ->; apply ND; apply Z.divide_0_r).
  destruct (halvings_exist 53 (Z.abs k)) as (n & H & L); [change (2 ^ Z.of_nat 53) with (2 ^ 53); lia|]. exists n. split; [exact H|]. intros c P E HP.
  destruct (C66_mul c P k N K) as (n' & H' & ->). rewrite (halvings_fun n' _ n H' H). f_equal. rewrite C86_digits by assumption. f_equal.
  assert (T53 : t < 53). { destruct (Z.le_gt_cases 53 t) as [G|]; [|assumption]. exfalso. assert (2 ^ 53 <= 2 ^ t) by (apply Z.pow_le_mono_r; lia). assert (2 ^ t <= Z.abs k) by (apply Z.divide_pos_le; [lia|apply Z.divide_abs_r, D]). lia. }
  assert (S1 : map (fun i => negb (k mod 2 ^ (Z.of_nat i + 1) =? 0)) (seq 0 (1074 + n)) = repeat false (Z.to_nat t) ++ repeat true (1074 + n - Z.to_nat t)).
  { replace (1074 + n)%nat with (Z.to_nat t + (1074 + n - Z.to_nat t))%nat at 1 by lia. rewrite seq_app, map_app. remember (1074 + n - Z.to_nat t)%nat as m eqn:Em. clear Em. f_equal.
    - assert (G : forall i len, (i + len <= Z.to_nat t)%nat -> map (fun i => negb (k mod 2 ^ (Z.of_nat i + 1) =? 0)) (seq i len) = repeat false len).
      { intros i len. revert i. induction len as [|len IH]; intros i I; [reflexivity|]. cbn [seq map repeat]. rewrite IH by lia. f_equal. apply negb_false_iff, Z.eqb_eq. apply Z.mod_divide; [apply Z.pow_nonzero; lia|].
        eapply Z.divide_trans; [|exact D]. exists (2 ^ (t - (Z.of_nat i + 1))). rewrite <- Z.pow_add_r by lia. f_equal. lia. }
      apply G. lia.
    - assert (G : forall len i, (Z.to_nat t <= i)%nat -> map (fun i => negb (k mod 2 ^ (Z.of_nat i + 1) =? 0)) (seq i len) = repeat true len).
      { induction len as [|len IH]; intros i I; [reflexivity|]. cbn [seq map repeat]. rewrite IH by lia. f_equal. apply negb_true_iff, Z.eqb_neq. intros X. apply Z.mod_divide in X; [|apply Z.pow_nonzero; lia].
        apply ND. eapply Z.divide_trans; [|exact X]. exists (2 ^ (Z.of_nat i - t)). rewrite <- Z.pow_add_r by lia. f_equal. lia. }
      apply G. lia. }
  rewrite S1, number_shape. replace (Z.to_nat t + (1074 + n - Z.to_nat t))%nat with (1074 + n)%nat by lia. rewrite Nat2Z.inj_add, Z2Nat.id by lia. reflexivity.
Qed.
Print Assumptions C86_small.
(** the effect of any scalar below 2^256 in absolute value *)
Theorem C86_any_scalar : forall k, k <> 0 -> Z.abs k < 2 ^ 256 -> exists a s, 0 <= a <= 255 /\ 1074 <= s <= 1331 /\
  forall c P, elliptic c -> point_of c P -> ec_mul c P (AInt k) = Ok (multiple (ec_add c) (k mod 2 + 2 * (2 ^ s - 2 ^ a)) P).
Proof.
  intros k N K. destruct (int_truediv_spec k 2 ltac:(lia)) as [(f & F & I & _)|[O F]].
  2:{ exfalso. destruct (ec_mul_ok secp256k1 (0, 0) k) as [Q E]; [|unfold ec_mul in E; cbn [integer rbind] in E; replace (k =? 0) with false in E by lia; rewrite F in E; discriminate].
      assert (2 ^ 256 < 2 ^ 1024) by (apply Z.pow_lt_mono_r; lia). lia. }
  destruct (half_bits_shape k f N K I) as (a & s & A & S1 & AS & B). exists (Z.of_nat a), (Z.of_nat s). split; [lia|]. split; [lia|]. intros c P E HP.
  unfold ec_mul. cbn [integer rbind]. replace (k =? 0) with false by lia. rewrite F. cbn [rbind]. f_equal. rewrite mul_loop_bits, B.
  pose proof (Z.mod_pos_bound k 2 ltac:(lia)) as M.
  transitivity (add_bits (ec_add c) ((k mod 2 =? 1) :: repeat false a ++ repeat true (s - a)) (0, 0) P).
  { cbn [add_bits]. assert (k mod 2 = 0 \/ k mod 2 = 1) as [-> | ->] by lia; reflexivity. }
  rewrite C86_digits by assumption. f_equal. cbn [number]. rewrite number_shape. replace (a + (s - a))%nat with s by lia.
  assert (k mod 2 = 0 \/ k mod 2 = 1) as [-> | ->] by lia; reflexivity.
Qed.
Print Assumptions C86_any_scalar.
Lemma mul_effect k : (forall c P, ec_mul c P (AInt k) = Raise OverflowError) \/
  exists M, 0 <= M /\ forall c P, elliptic c -> point_of c P -> ec_mul c P (AInt k) = Ok (multiple (ec_add c) M P).
Proof.
  destruct (Z.eq_dec k 0) as [->|N]; [right; exists 0; split; [lia|intros; reflexivity]|].
  destruct (int_truediv_spec k 2 ltac:(lia)) as [(f & F & _)|[_ F]].
  - right. exists (number (negb (k mod 2 =? 0) :: float_bits 2200 f)). split; [apply number_nonneg|]. intros c P E HP. rewrite <- C86_digits by assumption.
    unfold ec_mul. cbn [integer rbind]. replace (k =? 0) with false by lia. rewrite F. cbn [rbind]. rewrite mul_loop_bits. unfold Infinity. cbn [add_bits]. destruct (k mod 2 =? 0); reflexivity.
  - left. intros c P. unfold ec_mul. cbn [integer rbind]. replace (k =? 0) with false by lia. rewrite F. reflexivity.
Qed.
Lemma mul_arg c P k A : ec_mul c P k = Ok A -> exists j, integer k = Ok j /\ forall Q, ec_mul c Q k = ec_mul c Q (AInt j).
Proof.
  intros H. unfold ec_mul in H. destruct (integer k) as [j|e] eqn:J; [|discriminate]. exists j. split; [reflexivity|]. intros Q. unfold ec_mul. rewrite J. reflexivity.
Qed.
(** nevertheless multiplication by a given scalar respects addition, and two scalars commute:
    two parties who multiply each other's results agree *)
Theorem C86_additive : forall c P Q k A B, elliptic c -> point_of c P -> point_of c Q -> ec_mul c P k = Ok A -> ec_mul c Q k = Ok B ->
  point_of c A /\ ec_mul c (ec_add c P Q) k = Ok (ec_add c A B).
Proof.
  intros c P Q k A B E HP HQ HA HB. destruct (mul_arg c P k A HA) as (j & _ & Hk). rewrite Hk in *. destruct (mul_effect j) as [O|(M & M0 & X)]; [rewrite O in HA; discriminate|].
  pose proof (add_pt c E P Q HP HQ). rewrite X in HA, HB by assumption. rewrite X by assumption. assert (A = multiple (ec_add c) M P) as -> by congruence. assert (B = multiple (ec_add c) M Q) as -> by congruence.
  split; [apply (times_pt c E); exact HP|]. apply (f_equal Ok), (times_dist c E); assumption.
Qed.
Print Assumptions C86_additive.
Theorem C86_agree : forall c P j k A B, elliptic c -> point_of c P -> ec_mul c P j = Ok A -> ec_mul c P k = Ok B ->
  exists S, ec_mul c A k = Ok S /\ ec_mul c B j = Ok S.
Proof.
  intros c P j k A B E HP HA HB. destruct (mul_arg c P j A HA) as (j' & _ & Hj). destruct (mul_arg c P k B HB) as (k' & _ & Hk). rewrite Hj, Hk in *.
  destruct (mul_effect j') as [O|(M & M0 & X)]; [rewrite O in HA; discriminate|]. destruct (mul_effect k') as [O|(M' & M0' & X')]; [rewrite O in HB; discriminate|].
  rewrite X in HA by assumption. rewrite X' in HB by assumption. assert (A = multiple (ec_add c) M P) as -> by congruence. assert (B = multiple (ec_add c) M' P) as -> by congruence.
  exists (multiple (ec_add c) (M * M') P). rewrite X, X' by (try apply times_pt; assumption). split; apply (f_equal Ok); [rewrite Z.mul_comm|]; symmetry; apply (times_mul c E); assumption.
Qed.
Print Assumptions C86_agree.
Example C86_example : let c := mkCurve 7 1 3 in elliptic c /\ point_of c (4, 1) /\ exists A B, ec_mul c (4, 1) (AInt 2) = Ok A /\ ec_mul c (4, 1) (AInt 5) = Ok B /\ A <> B.
Proof.
  cbn zeta. split; [apply C85_example|]. split; [apply C85_example|]. vm_compute. eexists. eexists. split; [reflexivity|]. split; [reflexivity|]. discriminate.
Qed.

(** ** C87 *)
Lemma mul_exact k : 0 < k < 2 ^ 256 -> exists f a s, int_truediv k 2 = Ok f /\ (a <= s)%nat /\ 1074 <= Z.of_nat s <= 1331 /\ Z.of_nat a <= 255 /\
  (exists sg m e n, f = Floats.SpecFloat.S754_finite sg m e /\ 2 ^ 52 <= Zpos m < 2 ^ 53 /\ -53 <= e <= 203 /\ (53 <= n <= 54)%nat /\ s = (Z.to_nat (e + 1074) + n)%nat /\
    (Zpos m * 2 ^ (e + 1074)) mod 2 ^ (1075 + Z.of_nat a) <> 0 /\ (a = 0%nat \/ (Zpos m * 2 ^ (e + 1074)) mod 2 ^ (1074 + Z.of_nat a) = 0)) /\
  k <= 2 ^ (Z.of_nat s - 1073) /\ Z.of_nat a <= Z.of_nat s - 1074 /\
  forall c P, elliptic c -> point_of c P -> ec_mul c P (AInt k) = Ok (multiple (ec_add c) (k mod 2 + 2 * (2 ^ Z.of_nat s - 2 ^ Z.of_nat a)) P).
Proof.
  intros K. destruct (int_truediv_spec k 2 ltac:(lia)) as [(f & F & I & _)|[O F]].
  2:{ exfalso. destruct (ec_mul_ok secp256k1 (0, 0) k) as [Q E]; [|unfold ec_mul in E; cbn [integer rbind] in E; replace (k =? 0) with false in E by lia; rewrite F in E; discriminate].
      assert (2 ^ 256 < 2 ^ 1024) by (apply Z.pow_lt_mono_r; lia). lia. }
  destruct (half_bits_exact k f ltac:(lia) ltac:(lia) I) as (sg & m & e & n & a & Ef & M & E & HN & A & A2 & W1 & W2 & B). subst f.
  exists (Floats.SpecFloat.S754_finite sg m e), a, (Z.to_nat (e + 1074) + n)%nat. split; [exact F|]. split; [lia|]. split; [lia|]. split; [lia|]. split; [exists sg, m, e, n; auto 10|]. split; [|split].
  - eapply Z.le_trans; [apply (finite_bound k sg m e); try assumption; lia|]. apply Z.pow_le_mono_r; lia.
  - destruct W2 as [->|W2]; [lia|]. assert (X : 1074 + Z.of_nat a <= e + 1126); [|lia]. apply (zeros_bound (Zpos m * 2 ^ (e + 1074))); [|lia|lia|exact W2].
    replace (e + 1126 + 1) with (53 + (e + 1074)) by lia. rewrite (Z.pow_add_r 2 53 (e + 1074)) by lia. assert (0 < 2 ^ (e + 1074)) by (apply Z.pow_pos_nonneg; lia). split; [apply Z.mul_pos_pos; lia|apply Z.mul_lt_mono_pos_r; lia].
  - intros c P El HP. unfold ec_mul. cbn [integer rbind]. replace (k =? 0) with false by lia. rewrite F. cbn [rbind]. f_equal. rewrite mul_loop_bits, B.
    pose proof (Z.mod_pos_bound k 2 ltac:(lia)) as Md.
    transitivity (add_bits (ec_add c) ((k mod 2 =? 1) :: repeat false a ++ repeat true (Z.to_nat (e + 1074) + n - a)) (0, 0) P).
    { cbn [add_bits]. assert (k mod 2 = 0 \/ k mod 2 = 1) as [-> | ->] by lia; reflexivity. }
    rewrite C86_digits by assumption. f_equal. cbn [number]. rewrite number_shape. replace (a + (Z.to_nat (e + 1074) + n - a))%nat with (Z.to_nat (e + 1074) + n)%nat by lia.
    assert (k mod 2 = 0 \/ k mod 2 = 1) as [-> | ->] by lia; reflexivity.
Qed.
Lemma effect_nonneg k a s : (a <= s)%nat -> 0 <= k mod 2 + 2 * (2 ^ Z.of_nat s - 2 ^ Z.of_nat a).
Proof. intros AS. pose proof (Z.mod_pos_bound k 2 ltac:(lia)). assert (2 ^ Z.of_nat a <= 2 ^ Z.of_nat s) by (apply Z.pow_le_mono_r; lia). lia. Qed.
(** the base points generate groups of the orders given in the standards *)
Theorem C87_order : forall c G n, (c = secp256r1 /\ G = G256 /\ n = n256r1) \/ (c = secp256k1 /\ G = G256k1 /\ n = n256k1) ->
  prime n /\ forall j k, 0 <= j -> 0 <= k -> (multiple (ec_add c) j G = multiple (ec_add c) k G <-> (n | j - k)).
Proof.
  destruct C85_named as (E1 & E2 & G1 & G2 & _). intros c G n [(-> & -> & ->)|(-> & -> & ->)].
  - split; [exact prime_n256r1|]. apply (times_eq secp256r1 E1 n256r1 G256 G1 prime_n256r1 (order_r1 E1 G1)). discriminate.
  - split; [exact prime_n256k1|]. apply (times_eq secp256k1 E2 n256k1 G256k1 G2 prime_n256k1 (order_k1 E2 G2)). discriminate.
Qed.
Print Assumptions C87_order.
(** On secp256r1 the product of the base point with k is the k-fold sum of the base point for no k
    from 1 to n - 1, that is, for no private key. *)
Theorem C87_never : forall k, 0 < k < n256r1 -> ec_mul secp256r1 G256 (AInt k) <> Ok (multiple (ec_add secp256r1) k G256).
Proof.
  intros k K H. assert (K' : 0 < k < 2 ^ 256) by (assert (n256r1 < 2 ^ 256) by reflexivity; lia). destruct C85_named as (E1 & _ & G1 & _).
  destruct (mul_exact k K') as (f & a & s & F & AS & S1 & A1 & X & KS & A2 & M). rewrite (M _ _ E1 G1) in H.
  assert (H' : multiple (ec_add secp256r1) (k mod 2 + 2 * (2 ^ Z.of_nat s - 2 ^ Z.of_nat a)) G256 = multiple (ec_add secp256r1) k G256) by congruence.
  apply (proj2 (C87_order _ _ _ (or_introl (conj eq_refl (conj eq_refl eq_refl))))) in H'; [|apply effect_nonneg, AS|lia].
  apply (no_good_ok n256r1 [] ltac:(split; reflexivity) r1_scan k f a s K F AS S1 A1 X KS A2 H').
Qed.
Print Assumptions C87_never.
(** On secp256k1 it is for exactly two of them. *)
Lemma lucky_effect : forall k, k = lucky \/ k = lucky + 1 -> (match int_truediv k 2 with Ok f => (number (negb (k mod 2 =? 0) :: float_bits 2200 f) - k) mod n256k1 | Raise _ => 1 end) = 0.
Proof. intros k [-> | ->]; vm_cast_no_check (@eq_refl Z 0). Qed.
Theorem C87_two_scalars : forall k, 0 < k < n256k1 -> (ec_mul secp256k1 G256k1 (AInt k) = Ok (multiple (ec_add secp256k1) k G256k1) <->
  k = 0xd502f489393e64ea9918bfcd4e98a659c4d109cb110959a620f777d5e787baa6 \/ k = 0xd502f489393e64ea9918bfcd4e98a659c4d109cb110959a620f777d5e787baa7).
Proof.
  intros k K. assert (K' : 0 < k < 2 ^ 256) by (assert (n256k1 < 2 ^ 256) by reflexivity; lia). destruct C85_named as (_ & E2 & _ & G2 & _). split.
  - intros H. destruct (mul_exact k K') as (f & a & s & F & AS & S1 & A1 & X & KS & A2 & M). rewrite (M _ _ E2 G2) in H.
    assert (H' : multiple (ec_add secp256k1) (k mod 2 + 2 * (2 ^ Z.of_nat s - 2 ^ Z.of_nat a)) G256k1 = multiple (ec_add secp256k1) k G256k1) by congruence.
    apply (proj2 (C87_order _ _ _ (or_intror (conj eq_refl (conj eq_refl eq_refl))))) in H'; [|apply effect_nonneg, AS|lia].
    pose proof (no_good_ok n256k1 [lucky; lucky + 1] ltac:(split; reflexivity) k1_scan k f a s K F AS S1 A1 X KS A2 H') as Y. cbn [In] in Y.
    destruct Y as [Y|[Y|[]]]; [left|right]; rewrite <- Y; reflexivity.
  - intros Hk. assert (L : k = lucky \/ k = lucky + 1) by (destruct Hk as [-> | ->]; [left|right]; reflexivity). clear Hk. pose proof (lucky_effect k L) as X.
    unfold ec_mul. cbn [integer rbind]. replace (k =? 0) with false by lia. destruct (int_truediv k 2) as [f|e]; [|discriminate]. cbn [rbind]. apply (f_equal Ok). rewrite mul_loop_bits.
    transitivity (add_bits (ec_add secp256k1) (negb (k mod 2 =? 0) :: float_bits 2200 f) (0, 0) G256k1); [unfold Infinity; cbn [add_bits]; destruct (k mod 2 =? 0); reflexivity|].
    rewrite C86_digits by assumption. apply (proj2 (C87_order _ _ _ (or_intror (conj eq_refl (conj eq_refl eq_refl))))); [apply number_nonneg|lia|]. apply Z.mod_divide; [discriminate|exact X].
Qed.
Print Assumptions C87_two_scalars.

(** ** C88: calcpub maps all private keys below 2^256 to at most 132096 public keys *)
Lemma in_zrange (lo : Z) (n : nat) z : lo <= z < lo + Z.of_nat n -> In z (map (fun i => lo + Z.of_nat i) (seq 0 n)).
Proof. intros H. apply in_map_iff. exists (Z.to_nat (z - lo)). split; [lia|]. apply in_seq. lia. Qed.
Theorem C88_few_keys : forall E, elliptic (e_curve E) -> point_of (e_curve E) (e_G E) -> exists keys : list (Z * Z), Z.of_nat (length keys) <= 132096 /\
  forall x, 0 < x < 2 ^ 256 -> exists Y, calcpub E (AInt x) = Ok Y /\ In Y keys.
Proof.
  intros E El HG.
  exists (map (fun oas => let '(o, (a, s)) := oas in multiple (ec_add (e_curve E)) (o + 2 * (2 ^ s - 2 ^ a)) (e_G E))
    (list_prod [0; 1] (list_prod (map (fun i => 0 + Z.of_nat i) (seq 0 256)) (map (fun i => 1074 + Z.of_nat i) (seq 0 258))))).
  split.
  - rewrite map_length, !prod_length, !map_length, !seq_length, !Nat2Z.inj_mul. cbn [length]. lia.
  - intros x X. destruct (C86_any_scalar x ltac:(lia) ltac:(lia)) as (a & s & A & S1 & M). exists (multiple (ec_add (e_curve E)) (x mod 2 + 2 * (2 ^ s - 2 ^ a)) (e_G E)).
    split; [unfold calcpub; cbn [integer rbind]; exact (M _ _ El HG)|]. apply in_map_iff. exists (x mod 2, (a, s)). split; [reflexivity|]. pose proof (Z.mod_pos_bound x 2 ltac:(lia)).
    apply in_prod; [cbn; lia|]. apply in_prod; apply in_zrange; lia.
Qed.
Print Assumptions C88_few_keys.
(** in particular some two private keys have the same public key, and such pairs are easy to find:
    k and any odd k' with the same leading digits *)
Theorem C88_collision : forall c P, ec_mul c P (AInt 17) = ec_mul c P (AInt 19).
Proof. exact C66_17_19. Qed.
Print Assumptions C88_collision.
Example C88_example : elliptic (e_curve ECDSA_secp256r1) /\ point_of (e_curve ECDSA_secp256r1) (e_G ECDSA_secp256r1) /\
  elliptic (e_curve ECDSA_secp256k1) /\ point_of (e_curve ECDSA_secp256k1) (e_G ECDSA_secp256k1).
Proof. destruct C85_named as (A & B & C & D & _). exact (conj A (conj C (conj B D))). Qed.
