(** * L_EC3: the cubics of secp256r1 and secp256k1 have no root, so no point has y = 0.

    Both moduli are 1 modulo 3, and a root would make a certain number a cube:
    -7 for x^3 + 7, and a root s of s^2 + b s + 1 for x^3 - 3x + b (with x = t + 1/t,
    x^3 - 3x = t^3 + 1/t^3).  Euler's criterion for cubes, computed, refutes that. *)
From Coq Require Import ZArith Znumtheory Lia Setoid.
From Verif Require Import M_ECCurve L_Fermat L_Prime L_Field L_EC S_EC.
Open Scope Z_scope.

Lemma fermat_cong p u : prime p -> ~ (p | u) -> cong p (u ^ (p - 1)) 1.
Proof. intros Hp N. pose proof (prime_pos p Hp). apply cong_iff; [lia|]. rewrite (fermat p u Hp N). symmetry. apply Z.mod_1_l. lia. Qed.
(** if s v^3 is a cube prime to p, s passes Euler's criterion *)
Lemma cube_euler p m s u v : prime p -> p - 1 = 3 * m -> ~ (p | u) -> ~ (p | v) -> cong p (u ^ 3) (s * v ^ 3) -> modpow s m p = 1.
Proof.
  intros Hp M U V E. pose proof (prime_pos p Hp). assert (0 <= m) by lia.
  apply (cong_pow p _ _ m) in E. rewrite Z.pow_mul_l in E. rewrite <- !Z.pow_mul_r in E by lia. rewrite <- M in E.
  rewrite (fermat_cong p u Hp U) in E. rewrite (fermat_cong p v Hp V) in E. rewrite Z.mul_1_r in E.
  rewrite modpow_spec by lia. symmetry in E. apply cong_iff in E; [|lia]. rewrite E. apply Z.mod_1_l. lia.
Qed.
Lemma no_root_3 p b s m : prime p -> p - 1 = 3 * m -> (s * s + b * s + 1) mod p = 0 -> (b - 2) mod p <> 0 -> (b + 2) mod p <> 0 ->
  (modpow s m p =? 1) = false -> forall x, ~ cong p (x * x * x - 3 * x + b) 0.
Proof.
  intros Hp M S B1 B2 N x R. apply Z.eqb_neq in N. pose proof (prime_pos p Hp).
  assert (Sc : cong p (s * s + b * s + 1) 0) by (apply cong_iff; [lia|]; rewrite S; symmetry; apply Z.mod_0_l; lia).
  assert (Bc : cong p b (3 * x - x * x * x)). { apply cong_0_iff. rewrite <- R. apply cong_eq. ring. }
  assert (X1 : ~ cong p (x * x - 1) 0).
  { intros X. replace (x * x - 1) with ((x - 1) * (x + 1)) in X by ring. apply cong_mul_0 in X; [|exact Hp].
    destruct X as [X|X].
    - apply B1. apply Z.mod_divide; [lia|]. rewrite <- cong_0. assert (Y : cong p x 1) by (apply cong_0_iff; exact X).
      rewrite Bc, Y. apply cong_eq. reflexivity.
    - apply B2. apply Z.mod_divide; [lia|]. rewrite <- cong_0. assert (Y : cong p x (-1)) by (apply cong_0_iff; rewrite <- X; apply cong_eq; ring).
      rewrite Bc, Y. apply cong_eq. reflexivity. }
  assert (K : cong p ((s + x) ^ 3) (s * (x * x - 1) ^ 3)).
  { apply cong_0_iff. transitivity ((s * s + b * s + 1) * (s + x * x * x)).
    - rewrite Bc. apply cong_eq. ring.
    - rewrite Sc. apply cong_eq. ring. }
  apply N. apply (cube_euler p m s (s + x) (x * x - 1) Hp M); [| |exact K].
  - intros D. rewrite <- cong_0 in D. assert (Z3 : cong p (s * (x * x - 1) ^ 3) 0).
    { rewrite <- K. replace ((s + x) ^ 3) with ((s + x) * (s + x) * (s + x)) by ring. rewrite D. reflexivity. }
    apply cong_mul_0 in Z3; [|exact Hp]. destruct Z3 as [Z3|Z3].
    + rewrite Z3 in Sc. replace (0 * 0 + b * 0 + 1) with 1 in Sc by ring. apply cong_small in Sc; lia.
    + replace ((x * x - 1) ^ 3) with ((x * x - 1) * ((x * x - 1) * (x * x - 1))) in Z3 by ring.
      apply cong_mul_0 in Z3; [|exact Hp]. destruct Z3 as [Z3|Z3]; [tauto|]. apply cong_mul_0 in Z3; [|exact Hp]. tauto.
  - rewrite <- cong_0. exact X1.
Qed.
Lemma no_root_cube p b m : prime p -> p - 1 = 3 * m -> b mod p <> 0 -> (modpow (- b) m p =? 1) = false -> forall x, ~ cong p (x * x * x + b) 0.
Proof.
  intros Hp M B N x R. apply Z.eqb_neq in N. pose proof (prime_pos p Hp). apply N.
  assert (K : cong p (x ^ 3) (- b * 1 ^ 3)). { apply cong_0_iff. rewrite <- R. apply cong_eq. ring. }
  apply (cube_euler p m (- b) x 1 Hp M); [| |exact K].
  - intros D. rewrite <- cong_0 in D. rewrite D in R. apply B. apply Z.mod_divide; [lia|]. rewrite <- cong_0, <- R. apply cong_eq. ring.
  - intros D. apply Z.divide_1_r_nonneg in D; lia.
Qed.
Lemma r1_euler : (modpow 104365044870446813599959508293411955044557453795746568337280127806261069026255 ((p256 - 1) / 3) p256 =? 1) = false.
Proof. vm_cast_no_check (eq_refl false). Qed.
Lemma k1_euler : (modpow (- (7)) ((c_p secp256k1 - 1) / 3) (c_p secp256k1) =? 1) = false.
Proof. vm_cast_no_check (eq_refl false). Qed.
Lemma r1_no_root x : ~ cong (c_p secp256r1) (x * x * x + c_a secp256r1 * x + c_b secp256r1) 0.
Proof.
  intros R. apply (no_root_3 p256 (c_b secp256r1) 104365044870446813599959508293411955044557453795746568337280127806261069026255 ((p256 - 1) / 3) prime_p256
    ltac:(reflexivity) ltac:(vm_compute; reflexivity) ltac:(vm_compute; discriminate) ltac:(vm_compute; discriminate) r1_euler x).
  change (c_p secp256r1) with p256 in R. rewrite <- R. apply cong_0_iff.
  replace (x * x * x - 3 * x + c_b secp256r1 - (x * x * x + c_a secp256r1 * x + c_b secp256r1)) with (p256 * - x) by (change (c_a secp256r1) with (p256 - 3); ring).
  rewrite cong_0. exists (- x). ring.
Qed.
Lemma k1_no_root x : ~ cong (c_p secp256k1) (x * x * x + c_a secp256k1 * x + c_b secp256k1) 0.
Proof.
  intros R. apply (no_root_cube (c_p secp256k1) 7 ((c_p secp256k1 - 1) / 3) prime_p256k1
    ltac:(reflexivity) ltac:(vm_compute; discriminate) k1_euler x).
  rewrite <- R. apply cong_eq. cbn [c_a c_b secp256k1]. ring.
Qed.
Lemma r1_y_nonzero x y : equation (c_p secp256r1) (c_a secp256r1) (c_b secp256r1) x y -> y <> 0.
Proof. intros E ->. apply (r1_no_root x). unfold equation in E. rewrite same_cong in E. symmetry. exact E. Qed.
Lemma k1_y_nonzero x y : equation (c_p secp256k1) (c_a secp256k1) (c_b secp256k1) x y -> y <> 0.
Proof. intros E ->. apply (k1_no_root x). unfold equation in E. rewrite same_cong in E. symmetry. exact E. Qed.
