(** * L_EC: point addition and square roots *)
From Coq Require Import ZArith Znumtheory Zpow_facts Lia List Setoid.
From Verif Require Import M_Py M_ECCurve L_Fermat L_Prime L_Field S_EC.
Import ListNotations.
Open Scope Z_scope.

Lemma same_cong p a b : same p a b <-> cong p a b.
Proof. reflexivity. Qed.
Lemma prime_pos p : prime p -> 1 < p.
Proof. intros []; assumption. Qed.
Lemma ndiv_small p x : 0 < x < p -> ~ (p | x).
Proof. intros H D. apply Z.divide_pos_le in D; lia. Qed.
Lemma ncong_ndiv p x : ~ cong p x 0 -> ~ (p | x).
Proof. rewrite cong_0. tauto. Qed.

(** the algebra of the third intersection point *)
Lemma third_point p a b x1 y1 x2 l x3 y3 : prime p -> cong p (y1 * y1) (x1 * x1 * x1 + a * x1 + b) ->
  cong p x3 (l * l - x1 - x2) -> cong p y3 (l * (x1 - x3) - y1) ->
  (* the line meets the curve at x2 as well, or is tangent at x1 = x2 *)
  (~ cong p x1 x2 /\ exists y2, cong p (y2 * y2) (x2 * x2 * x2 + a * x2 + b) /\ cong p (l * (x1 - x2)) (y1 - y2)) \/
  (cong p x1 x2 /\ cong p (l * (2 * y1)) (3 * (x1 * x1) + a)) ->
  cong p (y3 * y3) (x3 * x3 * x3 + a * x3 + b).
Proof.
  intros Hp E1 X3 Y3 H.
  set (n := y1 - l * x1). set (z := l * l - x1 - x2).
  set (c := a - 2 * l * n - (x1 * x2 + x1 * z + x2 * z)). set (d := b - n * n + x1 * x2 * z).
  assert (F1 : cong p (c * x1 + d) 0).
  { replace (c * x1 + d) with (x1 * x1 * x1 + a * x1 + b - y1 * y1) by (unfold c, d, n, z; ring). rewrite E1. apply cong_eq. ring. }
  assert (C0 : cong p c 0).
  { destruct H as [(N & y2 & E2 & L)|(S & L)].
    - assert (F2 : cong p (c * x2 + d) 0).
      { replace (c * x2 + d) with (x2 * x2 * x2 + a * x2 + b - (y1 - l * (x1 - x2)) * (y1 - l * (x1 - x2))) by (unfold c, d, n, z; ring).
        rewrite L. replace (y1 - (y1 - y2)) with y2 by ring. rewrite E2. apply cong_eq. ring. }
      assert (P0 : cong p (c * (x1 - x2)) 0) by (replace (c * (x1 - x2)) with (c * x1 + d - (c * x2 + d)) by ring; rewrite F1, F2; reflexivity).
      apply cong_mul_0 in P0; [|exact Hp]. destruct P0 as [P0|P0]; [exact P0|]. exfalso. apply N. apply cong_0_iff, P0.
    - unfold c, z. rewrite <- S. rewrite (cong_0_iff p) in L.
      replace (a - 2 * l * n - (x1 * x1 + x1 * (l * l - x1 - x1) + x1 * (l * l - x1 - x1))) with (- (l * (2 * y1) - (3 * (x1 * x1) + a))) by (unfold n; ring).
      rewrite L. reflexivity. }
  assert (D0 : cong p d 0) by (replace d with (c * x1 + d - c * x1) by ring; rewrite F1, C0; reflexivity).
  rewrite Y3, X3. fold z.
  assert (G : cong p (z * z * z + a * z + b - (l * z + n) * (l * z + n)) 0).
  { replace (z * z * z + a * z + b - (l * z + n) * (l * z + n)) with (c * z + d) by (unfold c, d, z; ring). rewrite C0, D0. reflexivity. }
  replace ((l * (x1 - z) - y1) * (l * (x1 - z) - y1)) with ((l * z + n) * (l * z + n)) by (unfold n; ring).
  symmetry. apply cong_0_iff, G.
Qed.

(** ** ec_add *)
Lemma iszero_iff P : iszero P = true <-> P = (0, 0).
Proof. destruct P as [x y]. unfold iszero. cbn [fst snd]. rewrite andb_true_iff, !Z.eqb_eq. split; [intros [-> ->]; reflexivity|]. intros H. inversion H. tauto. Qed.
Lemma iszero_false P : iszero P = false <-> P <> (0, 0).
Proof. rewrite <- iszero_iff. destruct (iszero P); split; congruence. Qed.
Lemma point_eq_iff c P Q : 0 < c_p c -> point_eq c P Q = true <-> cong (c_p c) (fst P) (fst Q) /\ cong (c_p c) (snd P) (snd Q).
Proof. intros H. unfold point_eq. rewrite andb_true_iff, !feq_cong by exact H. tauto. Qed.

Lemma fsub_pos p a b : 0 < p -> 0 <= fsub p a b. Proof. intros H. apply Z.mod_pos_bound, H. Qed.
Lemma fmul_pos p a b : 0 < p -> 0 <= fmul p a b. Proof. intros H. apply Z.mod_pos_bound, H. Qed.
Lemma pos_of_ncong p a x : 0 <= x -> cong p x a -> ~ cong p a 0 -> 0 < x /\ ~ (p | x).
Proof.
  intros P E N. assert (M : ~ cong p x 0) by (rewrite E; exact N). split; [|apply ncong_ndiv, M].
  destruct (Z.eq_dec x 0) as [->|]; [|lia]. exfalso. apply M. reflexivity.
Qed.
Definition slope_finish (p l : Z) (x1 y1 x2 : Z) : Z * Z :=
  let x := fsub p (fpow p l 2) (fadd p x1 x2) in (x, fsub p (fmul p l (fsub p x1 x)) y1).
Lemma finish_spec p l x1 y1 x2 : 0 < p -> let R := slope_finish p l x1 y1 x2 in
  canonical p R /\ cong p (fst R) (l * l - x1 - x2) /\ cong p (snd R) (l * (x1 - fst R) - y1).
Proof.
  intros P. unfold slope_finish. cbn [fst snd]. set (x := fsub p (fpow p l 2) (fadd p x1 x2)). repeat split; try (apply Z.mod_pos_bound; exact P).
  - unfold x. rewrite fsub_cong, fpow_cong, fadd_cong by lia. apply cong_eq. rewrite Z.pow_2_r. ring.
  - rewrite fsub_cong, fmul_cong, fsub_cong by lia. reflexivity.
Qed.
Lemma sq_opp p y1 y2 : prime p -> cong p (y1 * y1) (y2 * y2) -> cong p y1 y2 \/ cong p y1 (- y2).
Proof.
  intros P H. apply cong_0_iff in H. replace (y1 * y1 - y2 * y2) with ((y1 - y2) * (y1 - - y2)) in H by ring.
  apply cong_mul_0 in H; [|exact P]. destruct H as [H|H]; [left|right]; apply cong_0_iff, H.
Qed.
Lemma same_x p a b P Q : prime p -> equation p a b (fst P) (snd P) -> equation p a b (fst Q) (snd Q) -> cong p (fst P) (fst Q) ->
  cong p (snd P) (snd Q) \/ cong p (snd P) (- snd Q).
Proof.
  intros Hp E F X. apply sq_opp; [exact Hp|]. unfold equation in *. rewrite same_cong in *. rewrite E, F, X. reflexivity.
Qed.

Lemma ec_add_sum c P Q : prime (c_p c) -> 2 < c_p c -> is_point (c_p c) (c_a c) (c_b c) P -> is_point (c_p c) (c_a c) (c_b c) Q ->
  sum (c_p c) (c_a c) P Q (ec_add c P Q).
Proof.
  intros Hp H2 [CP EP] [CQ EQ]. unfold ec_add. assert (P0 : 0 < c_p c) by lia.
  destruct (iszero P) eqn:ZP; [apply iszero_iff in ZP; subst; constructor|].
  destruct (iszero Q) eqn:ZQ; [apply iszero_iff in ZQ; subst; constructor|].
  apply iszero_false in ZP, ZQ. destruct EP as [|EP]; [tauto|]. destruct EQ as [|EQ]; [tauto|].
  destruct P as [x1 y1], Q as [x2 y2]. cbn [fst snd] in *. set (p := c_p c) in *.
  destruct (point_eq c (x1, y1) (x2, y2)) eqn:PE.
  - apply point_eq_iff in PE; [|exact P0]. cbn [fst snd] in PE. destruct PE as [EX EY]. fold p in EX, EY.
    destruct (feq p y1 0) eqn:Y0.
    + apply feq_cong in Y0; [|exact P0]. apply sum_opposite; try assumption. apply same_cong. rewrite <- EY, Y0. reflexivity.
    + apply feq_false in Y0; [|exact P0]. set (l := fdiv p (fadd p (fmul p 3 (fpow p x1 2)) (c_a c)) (fmul p 2 y1)).
      pose proof (finish_spec p l x1 y1 x2 P0) as F. unfold slope_finish in F. cbn [fst snd] in F. destruct F as (FC & FX & FY).
      apply sum_tangent with (l := l); try assumption; apply same_cong.
      * assert (N : ~ cong p (2 * y1) 0). { intros X. apply cong_mul_0 in X; [|exact Hp]. destruct X as [X|X]; [|tauto]. rewrite cong_0 in X. apply ndiv_small in X; lia. }
        destruct (pos_of_ncong p (2 * y1) (fmul p 2 y1)) as [A B]; [apply fmul_pos, P0|apply fmul_cong, P0|exact N|].
        rewrite <- (fmul_cong p 2 y1 P0) at 1. unfold l. rewrite (fdiv_mul p _ _ Hp A B). rewrite fadd_cong, fmul_cong, fpow_cong by lia. rewrite Z.pow_2_r. reflexivity.
      * rewrite FX. rewrite <- EX. reflexivity.
  - destruct (feq p x1 x2) eqn:XE.
    + apply feq_cong in XE; [|exact P0]. apply sum_opposite; try assumption. apply same_cong.
      destruct (same_x p (c_a c) (c_b c) (x1, y1) (x2, y2) Hp EP EQ XE) as [S|S]; [|exact S].
      exfalso. assert (point_eq c (x1, y1) (x2, y2) = true); [|congruence]. apply point_eq_iff; [exact P0|]. cbn [fst snd]. tauto.
    + apply feq_false in XE; [|exact P0]. set (l := fdiv p (fsub p y1 y2) (fsub p x1 x2)).
      pose proof (finish_spec p l x1 y1 x2 P0) as F. unfold slope_finish in F. cbn [fst snd] in F. destruct F as (FC & FX & FY).
      apply sum_chord with (l := l); try assumption; apply same_cong.
      assert (N : ~ cong p (x1 - x2) 0) by (rewrite <- cong_0_iff; exact XE).
      destruct (pos_of_ncong p (x1 - x2) (fsub p x1 x2)) as [A B]; [apply fsub_pos, P0|apply fsub_cong, P0|exact N|].
      rewrite <- (fsub_cong p x1 x2 P0) at 1. unfold l. rewrite (fdiv_mul p _ _ Hp A B). apply fsub_cong, P0.
Qed.

Lemma sum_point p a b P Q R : prime p -> 2 < p -> is_point p a b P -> is_point p a b Q -> sum p a P Q R -> is_point p a b R.
Proof.
  intros Hp H2 HP HQ S. destruct S; try assumption.
  - split; [split; cbn; lia|left; reflexivity].
  - split; [assumption|right]. destruct HP as [_ [|EP]]; [tauto|]. destruct HQ as [_ [|EQ]]; [tauto|]. unfold equation in *. cbn [fst snd] in *. rewrite same_cong in *.
    apply (third_point p a b x1 y1 x2 l); try assumption. left. split; [assumption|]. exists y2. split; assumption.
  - split; [assumption|right]. destruct HP as [_ [|EP]]; [tauto|]. unfold equation in *. cbn [fst snd] in *. rewrite same_cong in *.
    apply (third_point p a b x1 y1 x1 l); try assumption. right. split; [reflexivity|assumption].
Qed.

Lemma canon_eq p P Q : canonical p P -> canonical p Q -> cong p (fst P) (fst Q) -> cong p (snd P) (snd Q) -> P = Q.
Proof. intros [A B] [C D] X Y. destruct P, Q. cbn in *. f_equal; eapply cong_small; eassumption. Qed.

Lemma both_signs p y1 y2 : prime p -> 2 < p -> cong p y1 y2 -> cong p y1 (- y2) -> cong p y1 0.
Proof.
  intros Hp H2 A B. assert (X : cong p (2 * y1) 0). { replace (2 * y1) with (y1 + y1) by ring. rewrite A at 1. rewrite B. apply cong_eq. ring. }
  apply cong_mul_0 in X; [|exact Hp]. destruct X as [X|X]; [|exact X]. rewrite cong_0 in X. apply ndiv_small in X; lia.
Qed.
Lemma finish_unique p l l' x1 y1 x2 x3 y3 x4 y4 : cong p l l' -> canonical p (x3, y3) -> canonical p (x4, y4) ->
  cong p x3 (l * l - x1 - x2) -> cong p y3 (l * (x1 - x3) - y1) -> cong p x4 (l' * l' - x1 - x2) -> cong p y4 (l' * (x1 - x4) - y1) -> (x3, y3) = (x4, y4).
Proof.
  intros L C3 C4 X3 Y3 X4 Y4. assert (X : cong p x3 x4) by (rewrite X3, X4, L; reflexivity).
  apply (canon_eq p); cbn [fst snd]; try assumption. rewrite Y3, Y4, L, X. reflexivity.
Qed.
(** the sum is determined by the summands *)
Lemma sum_fun p a P Q R R' : prime p -> 2 < p -> canonical p P -> canonical p Q -> sum p a P Q R -> sum p a P Q R' -> R = R'.
Proof.
  intros Hp H2 CP CQ S T. assert (P0 : 0 < p) by lia.
  destruct S; inversion T; subst; try congruence; try tauto; rewrite ?same_cong in *;
    try (exfalso; match goal with N : ~ cong p ?x ?y, H : cong p ?x ?y |- _ => exact (N H) end).
  - (* opposite, tangent *) exfalso. match goal with N : ~ cong p y1 0 |- _ => apply N end.
    apply (both_signs p y1 y2 Hp H2); assumption.
  - (* chord, chord *)
    assert (L : cong p l l0). { apply (cong_cancel p l l0 (x1 - x2) Hp); [apply ncong_ndiv; rewrite <- cong_0_iff; assumption|]. etransitivity; [eassumption|]. symmetry. assumption. }
    eapply (finish_unique p l l0); eassumption.
  - exfalso. match goal with N : ~ cong p y1 0 |- _ => apply N end.
    apply (both_signs p y1 y2 Hp H2); assumption.
  - (* tangent, tangent *)
    assert (N2 : ~ (p | 2 * y1)). { intros X. apply prime_mult in X; [|exact Hp]. destruct X as [X|X]; [apply ndiv_small in X; lia|]. match goal with N : ~ cong p y1 0 |- _ => apply N, cong_0, X end. }
    assert (L : cong p l l0). { apply (cong_cancel p l l0 (2 * y1) Hp N2). etransitivity; [eassumption|]. symmetry. assumption. }
    eapply (finish_unique p l l0); eassumption.
Qed.
Lemma sum_comm p a P Q R : prime p -> sum p a P Q R -> sum p a Q P R.
Proof.
  intros Hp S. destruct S.
  - constructor.
  - constructor.
  - apply sum_opposite; try assumption; rewrite !same_cong in *; [symmetry; assumption|]. rewrite H2. apply cong_eq. ring.
  - apply sum_chord with (l := l); try assumption; rewrite ?same_cong in *.
    + intros X. apply H1. symmetry. exact X.
    + replace (l * (x2 - x1)) with (- (l * (x1 - x2))) by ring. rewrite H2. apply cong_eq. ring.
    + rewrite H3. apply cong_eq. ring.
    + rewrite H4. replace (l * (x2 - x3) - y2) with (l * (x1 - x3) - l * (x1 - x2) - y2) by ring. rewrite H2. apply cong_eq. ring.
  - apply sum_tangent with (l := l); try assumption; rewrite ?same_cong in *.
    + symmetry. assumption.
    + symmetry. assumption.
    + rewrite <- H2. assumption.
    + rewrite <- H2, <- H1. assumption.
    + rewrite <- H1. assumption.
    + rewrite <- H1, <- H2. assumption.
Qed.

(** ** square roots *)
Lemma pow_even_root p s : prime p -> p mod 4 = 3 -> cong p ((s * s) ^ ((p + 1) / 4) * (s * s) ^ ((p + 1) / 4)) (s * s).
Proof.
  intros Hp H3. pose proof (prime_pos p Hp). pose proof (Z.div_mod p 4 ltac:(lia)) as D.
  assert (E : (p + 1) / 4 = p / 4 + 1) by (symmetry; apply Z.div_unique with (r := 0); lia). rewrite E. pose proof (Z.div_pos p 4 ltac:(lia) ltac:(lia)).
  assert (EE : (s * s) ^ (p / 4 + 1) * (s * s) ^ (p / 4 + 1) = s * s * s ^ (p - 1)).
  { replace (s * s) with (s ^ 2) by ring. rewrite <- Z.pow_mul_r, <- !Z.pow_add_r by lia. f_equal. lia. }
  rewrite EE. destruct (Zdivide_dec p s) as [D0|N].
  - assert (Z0 : cong p s 0) by (apply cong_0, D0). replace (s * s * s ^ (p - 1)) with (s * (s * s ^ (p - 1))) by ring. transitivity (0 * (s * s ^ (p - 1))); [apply cong_mul; [exact Z0|reflexivity]|]. transitivity (0 * s); [reflexivity|]. apply cong_mul; [symmetry; exact Z0|reflexivity].
  - assert (F : cong p (s ^ (p - 1)) 1). { apply cong_iff; [lia|]. rewrite (fermat p s Hp N). symmetry. apply Z.mod_1_l. lia. }
    rewrite F. apply cong_eq. ring.
Qed.
Lemma test_bit1 p : test_bit p 1 = Z.testbit p 1.
Proof.
  unfold test_bit. change (Z.shiftl 1 1) with 2. destruct (Z.testbit p 1) eqn:T.
  - destruct (Z.eqb_spec (Z.land p 2) 0) as [E|]; [|reflexivity]. exfalso.
    assert (X : Z.testbit (Z.land p 2) 1 = true) by (rewrite Z.land_spec, T; reflexivity). rewrite E, Z.bits_0 in X. discriminate.
  - destruct (Z.eqb_spec (Z.land p 2) 0) as [|N]; [reflexivity|]. exfalso. apply N. apply Z.bits_inj'. intros n Hn. rewrite Z.land_spec, Z.bits_0.
    destruct (Z.eq_dec n 1) as [->|Nn]; [rewrite T; reflexivity|].
    replace (Z.testbit 2 n) with false; [apply andb_false_r|]. symmetry. change 2 with (2 ^ 1). rewrite Z.pow2_bits_eqb by lia. apply Z.eqb_neq. lia.
Qed.
Lemma test_bit1_mod p : 0 <= p -> test_bit p 1 = (2 <=? p mod 4).
Proof.
  intros P. rewrite test_bit1. rewrite Z.testbit_odd, Z.shiftr_div_pow2 by lia. change (2 ^ 1) with 2.
  pose proof (Z.div_mod p 4 ltac:(lia)) as D. pose proof (Z.mod_pos_bound p 4 ltac:(lia)) as B.
  assert (E : p / 2 = 2 * (p / 4) + p mod 4 / 2).
  { rewrite D at 1. replace (4 * (p / 4) + p mod 4) with (p mod 4 + 2 * (p / 4) * 2) by ring. rewrite Z.div_add by lia. ring. }
  rewrite E. rewrite Z.add_comm, Z.odd_add_mul_2.
  assert (C : p mod 4 = 0 \/ p mod 4 = 1 \/ p mod 4 = 2 \/ p mod 4 = 3) by lia. destruct C as [->|[->|[->| ->]]]; reflexivity.
Qed.
Lemma sqrtCQ_3 p v : p mod 4 = 3 -> 1 < p -> sqrtCQ v p =
  let z := v ^ ((p + 1) / 4) mod p in if (z * z) mod p =? v then Some z else None.
Proof.
  intros H P. unfold sqrtCQ. rewrite test_bit1_mod by lia. rewrite H. change (2 <=? 3) with true. cbn [negb].
  pose proof (Z.div_mod p 4 ltac:(lia)) as D. assert (E : (p + 1) / 4 = p / 4 + 1) by (symmetry; apply Z.div_unique with (r := 0); lia).
  rewrite Z.shiftr_div_pow2 by lia. change (2 ^ 2) with 4. rewrite <- E. rewrite modpow_spec; [reflexivity|lia|]. apply Z.div_pos; lia.
Qed.
Lemma sqrtCQ_root p v z : prime p -> p mod 4 = 3 -> sqrtCQ v p = Some z -> 0 <= z < p /\ 0 <= v < p /\ cong p (z * z) v.
Proof.
  intros Hp H S. pose proof (prime_pos p Hp). rewrite sqrtCQ_3 in S by lia. cbn zeta in S.
  destruct (Z.eqb_spec ((v ^ ((p + 1) / 4) mod p * (v ^ ((p + 1) / 4) mod p)) mod p) v) as [E|]; [|discriminate]. inversion S; subst.
  split; [apply Z.mod_pos_bound; lia|]. split; [rewrite <- E; apply Z.mod_pos_bound; lia|]. rewrite <- E at 3. symmetry. apply cong_mod. lia.
Qed.
Lemma sqrtCQ_total p v s : prime p -> p mod 4 = 3 -> 0 <= v < p -> cong p (s * s) v -> exists z, sqrtCQ v p = Some z.
Proof.
  intros Hp H V S. pose proof (prime_pos p Hp). rewrite sqrtCQ_3 by lia. cbn zeta. set (z := v ^ ((p + 1) / 4) mod p).
  assert (E : (z * z) mod p = v).
  { apply (cong_small p); [apply Z.mod_pos_bound; lia|exact V|]. rewrite cong_mod by lia. unfold z. rewrite cong_mod by lia.
    rewrite <- S at 3. rewrite <- (pow_even_root p s Hp H). apply cong_mul; apply cong_pow; symmetry; exact S. }
  rewrite E, Z.eqb_refl. eauto.
Qed.
