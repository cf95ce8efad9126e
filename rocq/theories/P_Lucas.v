(** * P_Lucas: _lucas_sequence (C73) *)
From Coq Require Import ZArith Znumtheory Lia List Bool Setoid.
From Verif Require Import M_Py M_ECCurve L_Field S_EC.
Import ListNotations.
Open Scope Z_scope.

(** ** the sequences over the integers *)
Section Seq.
Variables P Q : Z.
Let D := P * P - 4 * Q.
Notation U := (lucas_U P Q).
Notation V := (lucas_V P Q).
Lemma pair_step x k : lucas_pair P Q x (S k) = (snd (lucas_pair P Q x k), P * snd (lucas_pair P Q x k) - Q * fst (lucas_pair P Q x k)).
Proof. cbn [lucas_pair]. destruct (lucas_pair P Q x k). reflexivity. Qed.
Lemma lucas_inv k : let '(u, u') := lucas_pair P Q (0, 1) k in let '(v, v') := lucas_pair P Q (2, P) k in
  2 * u' = P * u + v /\ 2 * v' = P * v + D * u.
Proof.
  induction k as [|k IH]; [cbn [lucas_pair]; split; ring|]. rewrite !pair_step. destruct (lucas_pair P Q (0, 1) k) as [u u'], (lucas_pair P Q (2, P) k) as [v v']. cbn [fst snd].
  destruct IH as [A B]. split; apply (Z.mul_cancel_l _ _ 2); try lia.
Qed.
Lemma U_S k : 2 * U (S k) = P * U k + V k.
Proof. pose proof (lucas_inv k) as H. unfold lucas_U, lucas_V. rewrite !pair_step. destruct (lucas_pair P Q (0, 1) k), (lucas_pair P Q (2, P) k). cbn [fst snd]. apply H. Qed.
Lemma V_S k : 2 * V (S k) = P * V k + D * U k.
Proof. pose proof (lucas_inv k) as H. unfold lucas_U, lucas_V. rewrite !pair_step. destruct (lucas_pair P Q (0, 1) k), (lucas_pair P Q (2, P) k). cbn [fst snd]. apply H. Qed.
Lemma norm k : V k * V k - D * (U k * U k) = 4 * Q ^ Z.of_nat k.
Proof.
  induction k as [|k IH]; [change (V 0) with 2; change (U 0) with 0; rewrite Z.mul_0_r; reflexivity|].
  rewrite Nat2Z.inj_succ, Z.pow_succ_r by lia. pose proof (U_S k) as A. pose proof (V_S k) as B.
  assert (X : 4 * (V (S k) * V (S k) - D * (U (S k) * U (S k))) = 4 * (Q * (V k * V k - D * (U k * U k)))).
  { replace (4 * (V (S k) * V (S k) - D * (U (S k) * U (S k)))) with ((2 * V (S k)) * (2 * V (S k)) - D * ((2 * U (S k)) * (2 * U (S k)))) by ring. rewrite A, B. unfold D. ring. }
  rewrite IH in X. lia.
Qed.
Lemma add_formula m k : 2 * U (m + k) = U m * V k + V m * U k /\ 2 * V (m + k) = V m * V k + D * (U m * U k).
Proof.
  induction k as [|k [IA IB]].
  - rewrite Nat.add_0_r. change (V 0) with 2. change (U 0) with 0. lia.
  - rewrite Nat.add_succ_r. pose proof (U_S (m + k)) as A. pose proof (V_S (m + k)) as B. pose proof (U_S k) as A'. pose proof (V_S k) as B'. split.
    + apply (Z.mul_cancel_l _ _ 2); [lia|]. replace (2 * (2 * U (S (m + k)))) with (P * (2 * U (m + k)) + 2 * V (m + k)) by lia. rewrite IA, IB.
      replace (2 * (U m * V (S k) + V m * U (S k))) with (U m * (2 * V (S k)) + V m * (2 * U (S k))) by ring. rewrite A', B'. ring.
    + apply (Z.mul_cancel_l _ _ 2); [lia|]. replace (2 * (2 * V (S (m + k)))) with (P * (2 * V (m + k)) + D * (2 * U (m + k))) by lia. rewrite IA, IB.
      replace (2 * (V m * V (S k) + D * (U m * U (S k)))) with (V m * (2 * V (S k)) + D * (U m * (2 * U (S k)))) by ring. rewrite A', B'. ring.
Qed.
Lemma U_double k : U (k + k) = U k * V k.
Proof. pose proof (proj1 (add_formula k k)). lia. Qed.
Lemma V_double k : V (k + k) = V k * V k - 2 * Q ^ Z.of_nat k.
Proof. pose proof (proj2 (add_formula k k)). pose proof (norm k). lia. Qed.
End Seq.

(** ** the loop *)
Lemma half_cong n u : Z.odd n = true -> cong n (2 * half n u) u.
Proof.
  intros O. unfold half. rewrite Z.shiftr_div_pow2 by lia. change (2 ^ 1) with 2.
  assert (B : Z.land u 1 = u mod 2) by (change 1 with (Z.ones 1); apply Z.land_ones; lia). rewrite B.
  destruct (Z.eqb_spec (u mod 2) 0) as [E|E].
  - apply cong_eq. rewrite (Z.div_mod u 2) at 2 by lia. lia.
  - assert (E1 : u mod 2 = 1) by (pose proof (Z.mod_pos_bound u 2); lia).
    assert (N1 : n mod 2 = 1) by (rewrite Zmod_odd, O; reflexivity).
    assert (S1 : (u + n) mod 2 = 0) by (rewrite Z.add_mod, E1, N1 by lia; reflexivity).
    exists 1. pose proof (Z.div_mod (u + n) 2 ltac:(lia)). lia.
Qed.
Lemma half_unique n u x : Z.odd n = true -> cong n u (2 * x) -> cong n (half n u) x.
Proof.
  intros O H. assert (X : cong n (2 * half n u) (2 * x)) by (rewrite half_cong by exact O; exact H).
  unfold cong in *. replace (2 * half n u - 2 * x) with (2 * (half n u - x)) in X by ring.
  apply Gauss with 2; [exact X|]. apply bezout_rel_prime. apply Zodd_bool_iff in O. destruct (Zodd_ex n O) as [m ->]. exists 1 (- m). ring.
Qed.
Lemma kbit_spec k m : 0 <= k -> k / 2 ^ Z.of_nat m = 2 * (k / 2 ^ Z.of_nat (S m)) + (if kbit k (Z.of_nat (S m)) then 1 else 0).
Proof.
  intros K. unfold kbit. replace (Z.of_nat (S m) - 1) with (Z.of_nat m) by lia. rewrite Z.shiftr_div_pow2 by lia.
  assert (B : forall u, Z.land u 1 = u mod 2) by (intros u; change 1 with (Z.ones 1); apply Z.land_ones; lia). rewrite B.
  assert (E : k / 2 ^ Z.of_nat (S m) = k / 2 ^ Z.of_nat m / 2).
  { rewrite Z.div_div by (try apply Z.pow_nonzero; lia). rewrite Nat2Z.inj_succ, Z.pow_succ_r by lia. f_equal. ring. }
  rewrite E. set (q := k / 2 ^ Z.of_nat m). pose proof (Z.div_mod q 2 ltac:(lia)). pose proof (Z.mod_pos_bound q 2).
  destruct (Z.eqb_spec (q mod 2) 0); cbn [negb]; lia.
Qed.
Lemma minus_one_pow h : 0 <= h -> (-1) ^ h = 1 \/ (-1) ^ h = -1.
Proof. revert h. apply natlike_ind; [left; reflexivity|]. intros x X IH. rewrite Z.pow_succ_r by exact X. destruct IH as [-> | ->]; [right|left]; reflexivity. Qed.
Section Loop.
Variables n P Q k : Z.
Hypothesis N0 : 0 < n.
Hypothesis NO : Z.odd n = true.
Hypothesis K0 : 0 <= k.
Let D := P * P - 4 * Q.
Definition lU (h : Z) : Z := lucas_U P Q (Z.to_nat h).
Definition lV (h : Z) : Z := lucas_V P Q (Z.to_nat h).
Lemma lU_double h : 0 <= h -> lU (2 * h) = lU h * lV h.
Proof. intros H. unfold lU, lV. replace (Z.to_nat (2 * h)) with (Z.to_nat h + Z.to_nat h)%nat by lia. apply U_double. Qed.
Lemma lV_double h : 0 <= h -> lV (2 * h) = lV h * lV h - 2 * Q ^ h.
Proof. intros H. unfold lV. replace (Z.to_nat (2 * h)) with (Z.to_nat h + Z.to_nat h)%nat by lia. rewrite V_double, Z2Nat.id by exact H. reflexivity. Qed.
Lemma lU_next h : 0 <= h -> 2 * lU (h + 1) = P * lU h + lV h.
Proof. intros H. unfold lU, lV. replace (Z.to_nat (h + 1)) with (S (Z.to_nat h)) by lia. apply U_S. Qed.
Lemma lV_next h : 0 <= h -> 2 * lV (h + 1) = P * lV h + D * lU h.
Proof. intros H. unfold lU, lV. replace (Z.to_nat (h + 1)) with (S (Z.to_nat h)) by lia. apply V_S. Qed.
Lemma next_cong h u v : 0 <= h -> cong n u (lU h) -> cong n v (lV h) -> cong n (half n (u * P + v)) (lU (h + 1)) /\ cong n (half n (v * P + u * D)) (lV (h + 1)).
Proof.
  intros H A B. split; apply half_unique; try exact NO.
  - rewrite lU_next by exact H. rewrite A, B. apply cong_eq. ring.
  - rewrite lV_next by exact H. rewrite A, B. apply cong_eq. ring.
Qed.
Lemma double_cong h u v q : 0 <= h -> cong n u (lU h) -> cong n v (lV h) -> cong n q (Q ^ h) ->
  cong n ((u * v) mod n) (lU (2 * h)) /\ cong n ((v * v - 2 * q) mod n) (lV (2 * h)) /\ cong n (q * q) (Q ^ (2 * h)).
Proof.
  intros H A B C. split; [|split].
  - rewrite lU_double, cong_mod by assumption. rewrite A, B. reflexivity.
  - rewrite lV_double, cong_mod by assumption. rewrite B, C. reflexivity.
  - replace (2 * h) with (h + h) by lia. rewrite Z.pow_add_r by exact H. rewrite C. reflexivity.
Qed.
Lemma loop_3 m : forall u v q, let h := k / 2 ^ Z.of_nat m in cong n u (lU h) -> cong n v (lV h) -> cong n q (Q ^ h) ->
  let '(u', v') := lucas_loop_3 m n P Q D k u v q in cong n u' (lU k) /\ cong n v' (lV k).
Proof.
  induction m as [|m IH]; intros u v q h A B C.
  - unfold h in *. change (2 ^ Z.of_nat 0) with 1 in *. rewrite Z.div_1_r in *. split; assumption.
  - cbn [lucas_loop_3]. assert (H : 0 <= h) by (apply Z.div_pos; [exact K0|apply Z.pow_pos_nonneg; lia]).
    destruct (double_cong h u v q H A B C) as (A2 & B2 & C2). pose proof (kbit_spec k m K0) as KB. fold h in KB.
    unfold lucas_step_3. destruct (kbit k (Z.of_nat (S m))).
    + destruct (next_cong (2 * h) _ _ ltac:(lia) A2 B2) as [A3 B3]. apply IH; rewrite KB; [exact A3|exact B3|].
      rewrite cong_mod by exact N0. rewrite Z.pow_add_r, Z.pow_1_r by lia. rewrite C2. reflexivity.
    + rewrite Z.add_0_r in KB. apply IH; rewrite KB; [exact A2|exact B2|]. rewrite cong_mod by exact N0. exact C2.
Qed.
Lemma loop_1 m : Q = 1 -> forall u v, let h := k / 2 ^ Z.of_nat m in cong n u (lU h) -> cong n v (lV h) ->
  let '(u', v') := lucas_loop_1 m n P D k u v in cong n u' (lU k) /\ cong n v' (lV k).
Proof.
  intros Q1. induction m as [|m IH]; intros u v h A B.
  - unfold h in *. change (2 ^ Z.of_nat 0) with 1 in *. rewrite Z.div_1_r in *. split; assumption.
  - cbn [lucas_loop_1]. assert (H : 0 <= h) by (apply Z.div_pos; [exact K0|apply Z.pow_pos_nonneg; lia]).
    destruct (double_cong h u v 1 H A B) as (A2 & B2 & _). { rewrite Q1, Z.pow_1_l by exact H. reflexivity. }
    change (2 * 1) with 2 in B2. pose proof (kbit_spec k m K0) as KB. fold h in KB.
    unfold lucas_step_1. destruct (kbit k (Z.of_nat (S m))).
    + destruct (next_cong (2 * h) _ _ ltac:(lia) A2 B2) as [A3 B3]. apply IH; rewrite KB; assumption.
    + rewrite Z.add_0_r in KB. apply IH; rewrite KB; assumption.
Qed.
Lemma loop_2 m : P = 1 -> Q = -1 -> forall u v q, let h := k / 2 ^ Z.of_nat m in cong n u (lU h) -> cong n v (lV h) -> q = Q ^ h ->
  let '(u', v') := lucas_loop_2 m n D k u v q in cong n u' (lU k) /\ cong n v' (lV k).
Proof.
  intros P1 Q1. induction m as [|m IH]; intros u v q h A B C.
  - unfold h in *. change (2 ^ Z.of_nat 0) with 1 in *. rewrite Z.div_1_r in *. split; assumption.
  - cbn [lucas_loop_2]. assert (H : 0 <= h) by (apply Z.div_pos; [exact K0|apply Z.pow_pos_nonneg; lia]).
    destruct (double_cong h u v q H A B) as (A2 & B2 & _). { rewrite C. reflexivity. }
    pose proof (kbit_spec k m K0) as KB. fold h in KB.
    assert (QQ : Q ^ (2 * h) = 1). { rewrite Q1, Z.pow_mul_r by lia. change ((-1) ^ 2) with 1. apply Z.pow_1_l, H. }
    assert (Q01 : q = 1 \/ q = -1).
    { rewrite C, Q1. apply minus_one_pow, H. }
    assert (STEP : (if q =? 1 then ((v * v - 2) mod n, q) else ((v * v + 2) mod n, 1)) = ((v * v - 2 * q) mod n, 1)).
    { destruct Q01 as [-> | ->]; [reflexivity|]. change (-1 =? 1) with false. cbv iota. replace (v * v - 2 * -1) with (v * v + 2) by ring. reflexivity. }
    unfold lucas_step_2. rewrite STEP. destruct (kbit k (Z.of_nat (S m))).
    + destruct (next_cong (2 * h) _ _ ltac:(lia) A2 B2) as [A3 B3]. rewrite P1, !Z.mul_1_r in A3, B3. apply IH; rewrite KB; try exact A3; try exact B3.
      rewrite Z.pow_add_r, QQ, Z.pow_1_r, Q1 by lia. reflexivity.
    + rewrite Z.add_0_r in KB. apply IH; rewrite KB; try exact A2; try exact B2. symmetry. exact QQ.
Qed.
End Loop.

(** ** C73 *)
Theorem C73_lucas : forall n P Q k, 3 <= n -> Z.odd n = true -> P * P - 4 * Q <> 0 -> 0 <= k ->
  lucas_sequence n P Q k = Ok (lucas_U P Q (Z.to_nat k) mod n, lucas_V P Q (Z.to_nat k) mod n).
Proof.
  intros n P Q k N O D K. unfold lucas_sequence. replace (n <? 2) with false by lia. replace (k <? 0) with false by lia. replace (P * P - 4 * Q =? 0) with false by lia.
  destruct (Z.eqb_spec k 0) as [->|K1].
  { change (lucas_U P Q (Z.to_nat 0)) with 0. change (lucas_V P Q (Z.to_nat 0)) with 2. rewrite Z.mod_0_l, Z.mod_small by lia. reflexivity. }
  assert (N0 : 0 < n) by lia. set (m := Z.to_nat (bit_length k - 1)).
  assert (H1 : k / 2 ^ Z.of_nat m = 1).
  { unfold m, bit_length. replace (k =? 0) with false by lia. rewrite Z.abs_eq by exact K. replace (Z.log2 k + 1 - 1) with (Z.log2 k) by lia. rewrite Z2Nat.id by apply Z.log2_nonneg.
    pose proof (Z.log2_spec k ltac:(lia)) as [L1 L2]. rewrite Z.pow_succ_r in L2 by apply Z.log2_nonneg. symmetry. apply (Z.div_unique _ _ _ (k - 2 ^ Z.log2 k)); lia. }
  assert (I : forall u v, cong n u (lU P Q k) /\ cong n v (lV P Q k) -> Ok (u mod n, v mod n) = Ok (lucas_U P Q (Z.to_nat k) mod n, lucas_V P Q (Z.to_nat k) mod n)).
  { intros u v [A B]. apply cong_iff in A; [|exact N0]. apply cong_iff in B; [|exact N0]. rewrite A, B. reflexivity. }
  assert (U1 : cong n 1 (lU P Q (k / 2 ^ Z.of_nat m))) by (rewrite H1; reflexivity).
  assert (V1 : cong n P (lV P Q (k / 2 ^ Z.of_nat m))) by (rewrite H1; reflexivity).
  destruct (Z.eqb_spec Q 1) as [Q1|Q1].
  - pose proof (loop_1 n P Q k N0 O K m Q1 1 P U1 V1) as X. destruct (lucas_loop_1 _ _ _ _ _ _ _). apply I, X.
  - destruct ((P =? 1) && (Q =? -1)) eqn:PQ.
    + apply andb_prop in PQ. destruct PQ as [P1 Qm]. apply Z.eqb_eq in P1, Qm.
      assert (X1 : Q = Q ^ (k / 2 ^ Z.of_nat m)) by (rewrite H1, Z.pow_1_r; reflexivity).
      pose proof (loop_2 n P Q k N0 O K m P1 Qm 1 P Q U1 V1 X1) as X. destruct (lucas_loop_2 _ _ _ _ _ _ _). apply I, X.
    + assert (X1 : cong n Q (Q ^ (k / 2 ^ Z.of_nat m))) by (rewrite H1, Z.pow_1_r; reflexivity).
      pose proof (loop_3 n P Q k N0 O K m 1 P Q U1 V1 X1) as X. destruct (lucas_loop_3 _ _ _ _ _ _ _ _ _). apply I, X.
Qed.
Print Assumptions C73_lucas.
Theorem C73_refused : forall n P Q k, lucas_sequence n P Q k = Raise ValueError <-> n < 2 \/ k < 0 \/ P * P - 4 * Q = 0.
Proof.
  intros n P Q k. unfold lucas_sequence.
  destruct (Z.ltb_spec n 2); [split; [lia|reflexivity]|]. destruct (Z.ltb_spec k 0); [split; [lia|reflexivity]|]. destruct (Z.eqb_spec (P * P - 4 * Q) 0); [split; [lia|reflexivity]|].
  split; [|lia]. destruct (k =? 0); [discriminate|]. destruct (if Q =? 1 then _ else _). discriminate.
Qed.
Print Assumptions C73_refused.
(** for even n the halvings are wrong: for P = 1, Q = 2, U_3 = -1 is 3 modulo 4, not 1 *)
Theorem C73_even : exists n P Q k u v, 2 <= n /\ Z.even n = true /\ P * P - 4 * Q <> 0 /\ 0 <= k /\ lucas_sequence n P Q k = Ok (u, v) /\
  (u <> lucas_U P Q (Z.to_nat k) mod n \/ v <> lucas_V P Q (Z.to_nat k) mod n).
Proof. exists 4, 1, 2, 3, 1, 1. repeat split; try lia; try reflexivity; try discriminate. left. vm_compute. discriminate. Qed.
Print Assumptions C73_even.
Example C73_example : lucas_sequence 101 3 (-2) 20 = Ok (lucas_U 3 (-2) 20 mod 101, lucas_V 3 (-2) 20 mod 101) /\ lucas_U 1 (-1) 10 = 55 /\ lucas_V 1 (-1) 10 = 123.
Proof. vm_compute. repeat split; reflexivity. Qed.
