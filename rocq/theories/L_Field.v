(** * L_Field: the extended Euclid of ECCurve.py and arithmetic modulo p *)
From Coq Require Import ZArith Znumtheory Zpow_facts Lia Setoid Morphisms.
From Verif Require Import M_Py M_ECCurve L_Fermat L_Prime.
Open Scope Z_scope.

(** ** GCD *)
Lemma GCD_enough k : forall a b f, Z.abs a < 2 ^ Z.of_nat k -> (2 * k + 1 <= f)%nat -> GCD_fuel f a b <> None.
Proof.
  induction k as [|k IH]; intros a b f A F.
  - destruct f as [|f]; [lia|]. cbn. assert (a = 0) by (cbn in A; lia). subst. cbn. discriminate.
  - destruct f as [|f]; [lia|]. cbn. destruct (Z.eqb_spec a 0) as [->|Na]; [discriminate|].
    destruct f as [|f]; [lia|]. cbn [GCD_fuel]. destruct (Z.eqb_spec (b mod a) 0) as [E|N1]; [discriminate|].
    assert (H : GCD_fuel f (a mod (b mod a)) (b mod a) <> None).
    { apply IH; [|lia]. rewrite Nat2Z.inj_succ, Z.pow_succ_r in A by lia.
      set (r := b mod a) in *.
      assert (S : Z.abs (a mod r) * 2 < Z.abs a).
      { pose proof (Z.div_mod a r N1) as D. destruct (Z.lt_trichotomy a 0) as [L|[L|L]]; [|lia|].
        - pose proof (Z.mod_neg_bound b a L) as B. fold r in B. assert (R : r < 0) by lia. pose proof (Z.mod_neg_bound a r R).
          assert (1 <= a / r) by nia. nia.
        - pose proof (Z.mod_pos_bound b a L) as B. fold r in B. assert (R : 0 < r) by lia. pose proof (Z.mod_pos_bound a r R).
          assert (1 <= a / r) by nia. nia. }
      lia. }
    destruct (GCD_fuel f (a mod (b mod a)) (b mod a)) as [[[? ?] ?]|]; [discriminate|tauto].
Qed.
Lemma GCD_Some a b : exists g c d, GCD a b = Some (g, c, d).
Proof.
  destruct (GCD a b) as [[[g c] d]|] eqn:E; [eauto|]. exfalso. revert E. unfold GCD, bit_length.
  destruct (Z.eqb_spec a 0) as [->|N]; [cbn; discriminate|].
  apply (GCD_enough (Z.to_nat (Z.log2 (Z.abs a) + 1))).
  - pose proof (Z.log2_nonneg (Z.abs a)). rewrite Z2Nat.id by lia. replace (Z.log2 (Z.abs a) + 1) with (Z.succ (Z.log2 (Z.abs a))) by lia. apply Z.log2_spec. lia.
  - pose proof (Z.log2_nonneg (Z.abs a)). lia.
Qed.
Lemma GCD_fuel_spec f : forall a b g c d, GCD_fuel f a b = Some (g, c, d) ->
  a * c + b * d = g /\ (a = 0 -> g = b) /\ (a <> 0 -> g = Z.sgn a * Z.gcd a b).
Proof.
  induction f as [|f IH]; intros a b g c d H; [discriminate|]. cbn in H.
  destruct (Z.eqb_spec a 0) as [->|N].
  - inversion H; subst. repeat split; [ring|tauto].
  - destruct (GCD_fuel f (b mod a) a) as [[[d1 x1] y1]|] eqn:E; [|discriminate]. inversion H; subst.
    destruct (IH _ _ _ _ _ E) as (B & Z0 & Z1). pose proof (Z.div_mod b a N) as D. repeat split; [nia|tauto|]. intros _.
    assert (G : Z.gcd (b mod a) a = Z.gcd a b) by (apply Z.gcd_mod; exact N).
    destruct (Z.eq_dec (b mod a) 0) as [M|M].
    + rewrite (Z0 M). rewrite <- G, M, Z.gcd_0_l. symmetry. rewrite Z.mul_comm. apply Z.abs_sgn.
    + rewrite (Z1 M), G. f_equal. destruct (Z.lt_trichotomy a 0) as [L|[L|L]]; [|lia|].
      * pose proof (Z.mod_neg_bound b a L). rewrite !Z.sgn_neg by lia. reflexivity.
      * pose proof (Z.mod_pos_bound b a L). rewrite !Z.sgn_pos by lia. reflexivity.
Qed.
Lemma modinv_0 m : modinv 0 m = 0.
Proof. reflexivity. Qed.
Lemma modinv_bezout x m : x <> 0 -> exists d, x * modinv x m + m * d = Z.sgn x * Z.gcd x m.
Proof.
  intros N. unfold modinv. destruct (GCD_Some x m) as (g & c & d & E). rewrite E. unfold GCD in E.
  destruct (GCD_fuel_spec _ _ _ _ _ _ E) as (B & _ & G). exists d. rewrite <- (G N). exact B.
Qed.

(** ** congruence modulo p *)
Definition cong (p a b : Z) : Prop := (p | a - b).
Section Cong.
Variable p : Z.
#[local] Notation "a == b" := (cong p a b) (at level 70).
Lemma cong_refl a : a == a. Proof. exists 0. ring. Qed.
Lemma cong_sym a b : a == b -> b == a.
Proof. intros [k H]. exists (- k). replace (b - a) with (- (a - b)) by ring. rewrite H. ring. Qed.
Lemma cong_trans a b c : a == b -> b == c -> a == c.
Proof. intros [k H] [l L]. exists (k + l). replace (a - c) with ((a - b) + (b - c)) by ring. rewrite H, L. ring. Qed.
Lemma cong_add a b c d : a == b -> c == d -> a + c == b + d.
Proof. intros [k H] [l L]. exists (k + l). replace (a + c - (b + d)) with ((a - b) + (c - d)) by ring. rewrite H, L. ring. Qed.
Lemma cong_opp a b : a == b -> - a == - b.
Proof. intros [k H]. exists (- k). replace (- a - - b) with (- (a - b)) by ring. rewrite H. ring. Qed.
Lemma cong_sub a b c d : a == b -> c == d -> a - c == b - d.
Proof. intros H L. apply cong_add; [exact H|apply cong_opp, L]. Qed.
Lemma cong_mul a b c d : a == b -> c == d -> a * c == b * d.
Proof. intros [k H] [l L]. exists (k * c + b * l). replace (a * c - b * d) with ((a - b) * c + b * (c - d)) by ring. rewrite H, L. ring. Qed.
Lemma cong_pow a b n : a == b -> a ^ n == b ^ n.
Proof.
  intros H. destruct n as [|n|n]; [apply cong_refl| |apply cong_refl]. induction n as [|n IH] using Pos.peano_ind; [rewrite !Z.pow_1_r; exact H|].
  rewrite Pos2Z.inj_succ, !Z.pow_succ_r by lia. apply cong_mul; assumption.
Qed.
Lemma cong_p_0 : p == 0. Proof. exists 1. ring. Qed.
End Cong.
#[export] Instance cong_Equiv p : Equivalence (cong p).
Proof. split; [exact (cong_refl p)|exact (cong_sym p)|exact (cong_trans p)]. Qed.
#[export] Instance cong_add_m p : Proper (cong p ==> cong p ==> cong p) Z.add.
Proof. intros a b H c d L. apply cong_add; assumption. Qed.
#[export] Instance cong_sub_m p : Proper (cong p ==> cong p ==> cong p) Z.sub.
Proof. intros a b H c d L. apply cong_sub; assumption. Qed.
#[export] Instance cong_mul_m p : Proper (cong p ==> cong p ==> cong p) Z.mul.
Proof. intros a b H c d L. apply cong_mul; assumption. Qed.
#[export] Instance cong_opp_m p : Proper (cong p ==> cong p) Z.opp.
Proof. intros a b H. apply cong_opp; assumption. Qed.
Lemma cong_mod p a : 0 < p -> cong p (a mod p) a.
Proof. intros P. exists (- (a / p)). pose proof (Z.div_mod a p ltac:(lia)). nia. Qed.
Lemma cong_iff p a b : 0 < p -> cong p a b <-> a mod p = b mod p.
Proof. intros P. apply divide_mod_eq, P. Qed.
Lemma cong_small p a b : 0 <= a < p -> 0 <= b < p -> cong p a b -> a = b.
Proof. intros A B H. apply cong_iff in H; [|lia]. rewrite !Z.mod_small in H by lia. exact H. Qed.
Lemma cong_eq p a b : a = b -> cong p a b.
Proof. intros ->. apply cong_refl. Qed.
Lemma cong_0 p a : cong p a 0 <-> (p | a).
Proof. unfold cong. rewrite Z.sub_0_r. tauto. Qed.
Lemma cong_0_iff p a b : cong p a b <-> cong p (a - b) 0.
Proof. rewrite cong_0. reflexivity. Qed.
Lemma cong_mul_0 p a b : prime p -> cong p (a * b) 0 -> cong p a 0 \/ cong p b 0.
Proof. intros P. rewrite !cong_0. apply prime_mult, P. Qed.
Lemma feq_cong p a b : 0 < p -> feq p a b = true <-> cong p a b.
Proof. intros P. unfold feq. rewrite Z.eqb_eq. unfold cong. rewrite Z.mod_divide by lia. tauto. Qed.
Lemma feq_refl p a : 0 < p -> feq p a a = true.
Proof. intros P. apply feq_cong; [exact P|reflexivity]. Qed.
Lemma feq_false p a b : 0 < p -> feq p a b = false <-> ~ cong p a b.
Proof. intros P. rewrite <- (feq_cong p a b P). destruct (feq p a b); split; intros; congruence. Qed.

(** ** operators *)
Lemma fadd_cong p a b : 0 < p -> cong p (fadd p a b) (a + b). Proof. apply cong_mod. Qed.
Lemma fsub_cong p a b : 0 < p -> cong p (fsub p a b) (a - b). Proof. apply cong_mod. Qed.
Lemma fmul_cong p a b : 0 < p -> cong p (fmul p a b) (a * b). Proof. apply cong_mod. Qed.
Lemma fpow_cong p a e : 0 < p -> 0 <= e -> cong p (fpow p a e) (a ^ e).
Proof. intros P E. unfold fpow. rewrite modpow_spec by lia. apply cong_mod, P. Qed.
Lemma fneg_cong p a : cong p (fneg_ p a) (- a).
Proof. exists 1. unfold fneg_. ring. Qed.
Lemma finv_cong p a : prime p -> 0 < a -> ~ (p | a) -> cong p (a * finverse p a) 1.
Proof.
  intros P A N. destruct (modinv_bezout a p ltac:(lia)) as (d & B). rewrite Z.sgn_pos in B by lia.
  assert (G : Z.gcd a p = 1). { apply Zgcd_1_rel_prime. apply rel_prime_sym, prime_rel_prime; assumption. }
  exists (- d). unfold finverse. nia.
Qed.
Lemma finv_neg_cong p a : prime p -> a < 0 -> ~ (p | a) -> cong p (a * finverse p a) (- 1).
Proof.
  intros P A N. destruct (modinv_bezout a p ltac:(lia)) as (d & B). rewrite Z.sgn_neg in B by lia.
  assert (G : Z.gcd a p = 1). { apply Zgcd_1_rel_prime. apply rel_prime_sym, prime_rel_prime; assumption. }
  exists (- d). unfold finverse. nia.
Qed.
Lemma fdiv_cong p a b : 0 < p -> cong p (fdiv p a b) (a * finverse p b). Proof. apply cong_mod. Qed.
Lemma fdiv_mul p a b : prime p -> 0 < b -> ~ (p | b) -> cong p (fdiv p a b * b) a.
Proof.
  intros P B N. assert (0 < p) by (destruct P; lia). rewrite fdiv_cong by lia. replace (a * finverse p b * b) with (a * (b * finverse p b)) by ring.
  rewrite (finv_cong p b P B N). apply cong_eq. ring.
Qed.
Lemma fop_range p x : 0 < p -> 0 <= x mod p < p.
Proof. apply Z.mod_pos_bound. Qed.
Lemma cong_cancel p a b c : prime p -> ~ (p | c) -> cong p (a * c) (b * c) -> cong p a b.
Proof.
  intros P N H. apply cong_0_iff in H. replace (a * c - b * c) with ((a - b) * c) in H by ring.
  apply cong_mul_0 in H; [|exact P]. destruct H as [H|H]; [apply cong_0_iff, H|]. rewrite cong_0 in H. tauto.
Qed.
