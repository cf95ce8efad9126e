(** * P_Mul: point multiplication (C66) *)
From Coq Require Import Reals ZArith Lia Lra List Bool.
From Flocq Require Import Core.
From Flocq Require Import BinarySingleNaN.
From Coq Require Import Floats.SpecFloat.
From Verif Require Import M_Py M_Float M_ECCurve S_Float L_Float L_Mul S_EC.
Import ListNotations.
Open Scope Z_scope.

(** ** C66 *)
(** multiplying by zero *)
Theorem C66_zero : forall c P k, integer k = Ok 0 -> ec_mul c P k = Ok (0, 0).
Proof. intros c P k H. unfold ec_mul. rewrite H. reflexivity. Qed.
Print Assumptions C66_zero.

Lemma pow2_abs k m : 0 <= m -> (k mod 2 ^ m =? 0) = (Z.abs k mod 2 ^ m =? 0).
Proof.
  intros M. assert (P : 2 ^ m <> 0) by (apply Z.pow_nonzero; lia).
  destruct (Z.eqb_spec (k mod 2 ^ m) 0) as [E|E]; symmetry; [apply Z.eqb_eq|apply Z.eqb_neq; intros E'; apply E];
    apply Z.mod_divide; try exact P; apply Z.mod_divide in E || apply Z.mod_divide in E'; try exact P; [apply Z.divide_abs_r; exact E|apply Z.divide_abs_r; exact E'].
Qed.

Lemma seq_head {A} (g : nat -> A) len : map g (seq 0 (S len)) = g 0%nat :: map (fun i => g (S i)) (seq 0 len).
Proof. cbn [seq map]. f_equal. rewrite <- seq_shift, map_map. reflexivity. Qed.
Lemma add_bits_cons {A} (add : A -> A -> A) b r acc sh : add_bits add (b :: r) acc sh = add_bits add r (if b then add acc sh else acc) (add sh sh).
Proof. reflexivity. Qed.
Lemma shift_bits k len J K : 0 <= J -> K = J + 2 ->
  map (fun i => negb (Z.abs k * 2 ^ J mod 2 ^ (K + Z.of_nat i) =? 0)) (seq 0 len) = map (fun i => negb (k mod 2 ^ (Z.of_nat (S i) + 1) =? 0)) (seq 0 len).
Proof.
  intros HJ ->. apply map_ext. intros i. f_equal. rewrite (pow2_abs k) by lia. replace (J + 2 + Z.of_nat i) with ((Z.of_nat (S i) + 1) + J) by lia.
  rewrite (Z.pow_add_r 2 (Z.of_nat (S i) + 1) J) by lia. assert (0 < 2 ^ J) by (apply Z.pow_pos_nonneg; lia). assert (0 < 2 ^ (Z.of_nat (S i) + 1)) by (apply Z.pow_pos_nonneg; lia).
  rewrite Z.mul_mod_distr_r by lia. destruct (Z.eqb_spec (Z.abs k mod 2 ^ (Z.of_nat (S i) + 1)) 0) as [->|E]; [reflexivity|]. apply Z.eqb_neq. intros X. apply Z.mul_eq_0 in X. lia.
Qed.
(** The scalar is halved as a float, and every fraction counts as a set bit: for 0 < |k| < 2^53
    the loop adds 2^i P for *every* i from the number of trailing zeros of k up to
    1074 + n, where n is the number of rounded halvings that bring k to 0 -- not for the i
    where the binary digit of k is 1.  This holds whatever the curve and the point. *)
Theorem C66_mul : forall c P k, k <> 0 -> Z.abs k < 2 ^ 53 -> exists n, halvings n (Z.abs k) /\
  ec_mul c P (AInt k) = Ok (add_bits (ec_add c) (map (fun i => negb (k mod 2 ^ (Z.of_nat i + 1) =? 0)) (seq 0 (1074 + n))) (0, 0) P).
Proof.
  intros c P k N K. destruct (halvings_exist 53 (Z.abs k)) as (n & H & L); [change (2 ^ Z.of_nat 53) with (2 ^ 53); lia|].
  exists n. split; [exact H|]. unfold ec_mul. cbn [integer rbind]. replace (k =? 0) with false by lia.
  assert (A : Rabs (IZR k / 2) = sub (Z.abs k * 2 ^ Z.of_nat 1073)).
  { unfold Rdiv. rewrite Rabs_mult, (Rabs_pos_eq (/ 2)) by lra. rewrite <- abs_IZR. unfold sub. rewrite mult_IZR. change (2 ^ Z.of_nat 1073) with (Zpower radix2 1073).
    rewrite IZR_Zpower by lia. rewrite Rmult_assoc, <- bpow_plus. change (1073 + -1074) with (-1). cbn [bpow]. f_equal. }
  assert (R : rnd64 (IZR k / 2) = (IZR k / 2)%R).
  { pose proof (rnd_sub_exact (Z.abs k) (Z.of_nat 1073) ltac:(lia) ltac:(lia)) as X. rewrite <- A in X.
    unfold Rabs in X. destruct (Rcase_abs (IZR k / 2)); [|exact X]. rewrite rnd64_opp in X. lra. }
  destruct (int_truediv_spec k 2 ltac:(lia)) as [(f & -> & F & _)|[O _]].
  2:{ exfalso. unfold overflows in O. rewrite R in O. apply (Rle_not_lt _ _ O). unfold Rdiv. rewrite Rabs_mult, (Rabs_pos_eq (/ 2)), <- abs_IZR by lra.
      apply Rlt_trans with (bpow radix2 53); [|apply bpow_lt; lia]. rewrite <- (IZR_Zpower radix2 53) by lia. change (Zpower radix2 53) with (2 ^ 53).
      assert (IZR (Z.abs k) < IZR (2 ^ 53))%R by (apply IZR_lt; exact K). assert (0 <= IZR (Z.abs k))%R by (apply IZR_le; lia). lra. }
  rewrite R in F. cbn [rbind]. f_equal. unfold Infinity. rewrite mul_loop_bits.
  rewrite (bits_all 1073 (Z.abs k) n f _ 2200 ltac:(lia) H F A) by lia.
  replace (1074 + n)%nat with (S (1073 + n)) by lia. remember (1073 + n)%nat as len eqn:Len. clear Len. rewrite seq_head, add_bits_cons. change (2 ^ (Z.of_nat 0 + 1)) with 2.
  rewrite (shift_bits k len (Z.of_nat 1073) 1075) by (reflexivity || lia).
  destruct (k mod 2 =? 0); reflexivity.
Qed.
Print Assumptions C66_mul.
(** consequently a negative scalar is treated as its absolute value *)
Theorem C66_negative : forall c P k, Z.abs k < 2 ^ 53 -> ec_mul c P (AInt (- k)) = ec_mul c P (AInt k).
Proof.
  intros c P k K. destruct (Z.eq_dec k 0) as [->|N]; [reflexivity|].
  destruct (C66_mul c P k N K) as (n & H & ->). destruct (C66_mul c P (- k) ltac:(lia) ltac:(lia)) as (m & H' & ->).
  rewrite Z.abs_opp in H'. rewrite (halvings_fun m _ n H' H). generalize (1074 + n)%nat. intros len.
  assert (E : map (fun i => negb (- k mod 2 ^ (Z.of_nat i + 1) =? 0)) (seq 0 len) = map (fun i => negb (k mod 2 ^ (Z.of_nat i + 1) =? 0)) (seq 0 len)); [|rewrite E; reflexivity].
  apply map_ext. intros i. rewrite (pow2_abs (- k)), (pow2_abs k), Z.abs_opp by lia. reflexivity.
Qed.
Print Assumptions C66_negative.
(** ... and two odd scalars with equally many halvings give the same product of any point on
    any curve, for instance 17 and 19 *)
Theorem C66_odd : forall c P j k n, Z.odd j = true -> Z.odd k = true -> Z.abs j < 2 ^ 53 -> Z.abs k < 2 ^ 53 -> halvings n (Z.abs j) -> halvings n (Z.abs k) ->
  ec_mul c P (AInt j) = ec_mul c P (AInt k) /\ ec_mul c P (AInt k) = Ok (add_bits (ec_add c) (repeat true (1074 + n)) (0, 0) P).
Proof.
  assert (G : forall c P k n, Z.odd k = true -> Z.abs k < 2 ^ 53 -> halvings n (Z.abs k) -> ec_mul c P (AInt k) = Ok (add_bits (ec_add c) (repeat true (1074 + n)) (0, 0) P)).
  { intros c P k n O K H. assert (N : k <> 0) by (intros ->; discriminate). destruct (C66_mul c P k N K) as (m & H' & ->). rewrite (halvings_fun m _ n H' H). generalize (1074 + n)%nat. intros len.
    assert (E : forall i, map (fun i => negb (k mod 2 ^ (Z.of_nat i + 1) =? 0)) (seq i len) = repeat true len); [|rewrite E; reflexivity].
    induction len as [|len IH]; intros i; [reflexivity|]. cbn [seq map repeat]. rewrite IH. f_equal.
    replace (k mod 2 ^ (Z.of_nat i + 1) =? 0) with false; [reflexivity|]. symmetry. apply Z.eqb_neq. intros E. apply Z.mod_divide in E; [|apply Z.pow_nonzero; lia].
    destruct E as [q E]. rewrite Z.pow_add_r, Z.pow_1_r, Z.mul_assoc in E by lia. rewrite E, Z.odd_mul, andb_comm in O. discriminate. }
  intros c P j k n Oj Ok' J K Hj Hk. rewrite (G c P j n), (G c P k n) by assumption. split; reflexivity.
Qed.
Print Assumptions C66_odd.
Lemma halvings_17 : halvings 5 17 /\ halvings 5 19.
Proof. split; repeat (constructor; [discriminate|]; match goal with |- halvings _ ?t => let v := eval vm_compute in t in change t with v end); constructor. Qed.
Theorem C66_17_19 : forall c P, ec_mul c P (AInt 17) = ec_mul c P (AInt 19).
Proof. intros c P. exact (proj1 (C66_odd c P 17 19 5 eq_refl eq_refl eq_refl eq_refl (proj1 halvings_17) (proj2 halvings_17))). Qed.
Print Assumptions C66_17_19.
(** whatever the scalar, at least 1000 points are added, on top of P itself when the scalar is
    odd: from some position on every bit is taken to be set *)
Theorem C66_any_scalar : forall c P k r, k <> 0 -> ec_mul c P (AInt k) = Ok r -> exists a b, (1000 <= b)%nat /\
  r = add_bits (ec_add c) (Z.odd k :: repeat false a ++ repeat true b) (0, 0) P.
Proof.
  intros c P k r N E. unfold ec_mul in E. cbn [integer rbind] in E. replace (k =? 0) with false in E by lia.
  destruct (int_truediv_spec k 2 ltac:(lia)) as [(f & F & I & _)|[_ F]]; rewrite F in E; [|discriminate]. cbn [rbind] in E.
  assert (X : r = mul_loop_float 2200 c (if k mod 2 =? 0 then Infinity else ec_add c Infinity P) (ec_add c P P) f) by congruence. clear E F.
  rewrite mul_loop_bits in X. destruct (half_bits k f N I) as (a & b & B & L). rewrite B in X. exists a, b. split; [exact L|]. rewrite X. cbn [add_bits].
  rewrite Zmod_odd. destruct (Z.odd k); reflexivity.
Qed.
Print Assumptions C66_any_scalar.
(** scalars from 2^1025 on raise OverflowError *)
Theorem C66_overflow : forall c P k, 2 ^ 1025 <= Z.abs k -> ec_mul c P (AInt k) = Raise OverflowError.
Proof.
  intros c P k K. unfold ec_mul. cbn [integer rbind]. assert (0 < 2 ^ 1025) by (apply Z.pow_pos_nonneg; lia). replace (k =? 0) with false by lia.
  destruct (int_truediv_spec k 2 ltac:(lia)) as [(f & _ & _ & F)|[_ ->]]; [|reflexivity]. exfalso. apply (Rlt_not_le _ _ F).
  unfold rnd64. rewrite <- round_NE_abs by auto with typeclass_instances. apply round_ge_generic; [auto with typeclass_instances..| |].
  - apply generic_format_bpow. unfold FLT_exp. lia.
  - unfold Rdiv. rewrite Rabs_mult, (Rabs_pos_eq (/ 2)), <- abs_IZR by lra. apply IZR_le in K. change (2 ^ 1025) with (Zpower radix2 1025) in K. rewrite IZR_Zpower in K by lia.
    change 1025 with (1024 + 1) in K. rewrite bpow_plus in K. change (bpow radix2 1) with 2%R in K. lra.
Qed.
Print Assumptions C66_overflow.
