(** * L_Mult: multiples of a point *)
From Coq Require Import ZArith Znumtheory Lia Bool List.
From Verif Require Import M_ECCurve L_Field S_EC S_Group L_EC L_Fp2.
Import ListNotations.
Open Scope Z_scope.

Section Mult.
Variable c : curve.
Hypothesis E : elliptic c.
Local Notation add := (ec_add c).
Local Notation pt := (point_of c).
Local Notation times := (multiple (ec_add c)).
Let Hp : prime (c_p c) := proj1 E.
Let H2 : 2 < c_p c := proj1 (proj2 E).
Lemma add_pt P Q : pt P -> pt Q -> pt (add P Q).
Proof. destruct E as (A & B & C & D). apply add_point; assumption. Qed.
Lemma inf_pt : pt (0, 0).
Proof. split; [split; cbn; lia|left; reflexivity]. Qed.
Lemma assoc P Q R : pt P -> pt Q -> pt R -> add (add P Q) R = add P (add Q R).
Proof. destruct E as (A & B & C & D). apply add_assoc; assumption. Qed.
Lemma comm P Q : pt P -> pt Q -> add P Q = add Q P.
Proof.
  intros HP HQ. apply (sum_fun (c_p c) (c_a c) P Q); try assumption; [apply HP|apply HQ|apply ec_add_sum; assumption|].
  apply sum_comm; [exact Hp|]. apply ec_add_sum; assumption.
Qed.
Lemma cancel P P' Q : pt P -> pt P' -> pt Q -> add P Q = add P' Q -> P = P'.
Proof. destruct E as (A & B & C & D). apply add_cancel; assumption. Qed.
Lemma add_inf P : add P (0, 0) = P.
Proof. destruct P as [x y]. unfold ec_add. destruct (iszero (x, y)) eqn:I; [apply iszero_iff in I; rewrite I|]; reflexivity. Qed.
Lemma times_0 P : times 0 P = (0, 0). Proof. reflexivity. Qed.
Lemma times_succ k P : 0 <= k -> times (Z.succ k) P = add P (times k P).
Proof.
  intros K. destruct k as [|k|k]; [reflexivity| |lia]. unfold multiple. cbn [Z.succ Z.add]. rewrite Pos.add_1_r. cbn [Z.iter]. apply Pos.iter_succ.
Qed.
Lemma times_neg k P : k <= 0 -> times k P = (0, 0).
Proof. destruct k; try reflexivity; lia. Qed.
Lemma times_pt k P : pt P -> pt (times k P).
Proof.
  intros HP. destruct (Z.le_gt_cases k 0) as [K|K]; [rewrite times_neg by exact K; apply inf_pt|].
  assert (K' : 0 <= k) by lia. clear K. revert k K'. apply natlike_ind; [apply inf_pt|]. intros k K IH. rewrite times_succ by exact K. apply add_pt; assumption.
Qed.
Lemma times_add j k P : pt P -> 0 <= j -> 0 <= k -> times (j + k) P = add (times j P) (times k P).
Proof.
  intros HP J K. revert j J. apply natlike_ind; [reflexivity|]. intros j J IH. rewrite Z.add_succ_l, !times_succ, IH by lia. symmetry. apply assoc; [exact HP|apply times_pt, HP|apply times_pt, HP].
Qed.
Lemma times_1 P : times 1 P = P. Proof. unfold multiple. cbn. apply add_inf. Qed.
Lemma swap4 A B C D : pt A -> pt B -> pt C -> pt D -> add (add A B) (add C D) = add (add A C) (add B D).
Proof.
  intros HA HB HC HD. rewrite (assoc A B), (assoc A C) by (try apply add_pt; assumption). f_equal. rewrite <- (assoc B C D), <- (assoc C B D) by assumption. f_equal. apply comm; assumption.
Qed.
Lemma times_dist k P Q : pt P -> pt Q -> times k (add P Q) = add (times k P) (times k Q).
Proof.
  intros HP HQ. destruct (Z.le_gt_cases k 0) as [K|K]; [rewrite !times_neg by exact K; reflexivity|].
  assert (K' : 0 <= k) by lia. clear K. revert k K'. apply natlike_ind; [reflexivity|]. intros k K IH. rewrite !times_succ, IH by exact K.
  apply swap4; try apply times_pt; assumption.
Qed.
Lemma times_inf k : times k (0, 0) = (0, 0).
Proof.
  destruct (Z.le_gt_cases k 0) as [K|K]; [apply times_neg, K|]. assert (K' : 0 <= k) by lia. clear K. revert k K'. apply natlike_ind; [reflexivity|]. intros k K IH. rewrite times_succ, IH by exact K. reflexivity.
Qed.
Lemma times_mul j k P : pt P -> 0 <= j -> 0 <= k -> times (j * k) P = times j (times k P).
Proof.
  intros HP J K. revert j J. apply natlike_ind; [reflexivity|]. intros j J IH. rewrite Z.mul_succ_l, times_succ by lia. rewrite times_add by (try assumption; nia). rewrite IH.
  apply comm; apply times_pt; try apply times_pt; assumption.
Qed.
Lemma number_nonneg bits : 0 <= number bits.
Proof. induction bits as [|b r IH]; cbn [number]; [lia|destruct b; lia]. Qed.
Lemma add_bits_times bits : forall acc P, pt acc -> pt P -> add_bits add bits acc P = add acc (times (number bits) P).
Proof.
  induction bits as [|b r IH]; intros acc P HA HP; cbn [add_bits number]; [symmetry; apply add_inf|]. pose proof (number_nonneg r) as N.
  pose proof (add_pt P P HP HP) as HPP. rewrite IH; [|destruct b; [apply add_pt|]; assumption|exact HPP].
  assert (D : times (number r) (add P P) = times (2 * number r) P). { rewrite times_dist by assumption. replace (2 * number r) with (number r + number r) by lia. symmetry. apply times_add; assumption. }
  rewrite D. destruct b; [|reflexivity]. rewrite times_add, times_1 by (assumption || lia). apply assoc; [exact HA|exact HP|apply times_pt, HP].
Qed.
Lemma add_bits_inf bits P : pt P -> add_bits add bits (0, 0) P = times (number bits) P.
Proof. intros HP. rewrite add_bits_times by (exact inf_pt || exact HP). reflexivity. Qed.
(** a point of prime order *)
Lemma times_order n P : pt P -> 0 < n -> times n P = (0, 0) -> forall k, 0 <= k -> times k P = times (k mod n) P.
Proof.
  intros HP N Z k K. rewrite (Z.div_mod k n) at 1 by lia. assert (0 <= k / n) by (apply Z.div_pos; lia). pose proof (Z.mod_pos_bound k n N).
  rewrite times_add by (assumption || nia). rewrite (Z.mul_comm n), times_mul by (assumption || lia). rewrite Z, times_inf. reflexivity.
Qed.
Lemma times_eq_0 n P : pt P -> prime n -> times n P = (0, 0) -> P <> (0, 0) -> forall k, 0 <= k -> times k P = (0, 0) -> (n | k).
Proof.
  intros HP Hn Z NZ k K E0. pose proof (prime_pos n Hn) as N. destruct (Zdivide_dec n k) as [|ND]; [assumption|]. exfalso. apply NZ.
  pose proof (prime_rel_prime n Hn k ND) as R. apply rel_prime_sym in R. apply rel_prime_bezout in R. destruct R as [u v B].
  (* u*k + v*n = 1 *)
  assert (M : (u mod n) * k mod n = 1). { rewrite <- Z.mul_mod_idemp_r, Z.mul_mod_idemp_r, Z.mul_mod_idemp_l by lia. replace (u * k) with (1 + (- v) * n) by lia. rewrite Z.mod_add by lia. apply Z.mod_1_l. exact N. }
  pose proof (Z.mod_pos_bound u n ltac:(lia)) as U.
  rewrite <- (times_1 P), <- M, <- (times_order n P HP ltac:(lia) Z) by nia. rewrite times_mul by (assumption || lia). rewrite E0. apply times_inf.
Qed.
Lemma times_eq n P : pt P -> prime n -> times n P = (0, 0) -> P <> (0, 0) -> forall j k, 0 <= j -> 0 <= k -> times j P = times k P <-> (n | j - k).
Proof.
  intros HP Hn Z NZ. pose proof (prime_pos n Hn) as N.
  assert (G : forall j k, 0 <= j <= k -> times j P = times k P -> (n | k - j)).
  { intros j k J X. apply (times_eq_0 n P HP Hn Z NZ); [lia|]. apply (cancel _ _ (times j P)); [apply times_pt, HP|exact inf_pt|apply times_pt, HP|].
    rewrite <- times_add by (assumption || lia). replace (k - j + j) with k by lia. rewrite <- X. reflexivity. }
  intros j k J K. split.
  - intros X. destruct (Z.le_ge_cases j k); [|apply G; [lia|symmetry; exact X]]. replace (j - k) with (- (k - j)) by lia. apply Z.divide_opp_r, G; [lia|exact X].
  - intros D. rewrite (times_order n P HP ltac:(lia) Z j J), (times_order n P HP ltac:(lia) Z k K). f_equal. apply L_Fermat.divide_mod_eq; [lia|exact D].
Qed.
End Mult.
