(** * L_Fp: the integers modulo a prime as a field; the points of a curve over it *)
From Coq Require Import ZArith Znumtheory Lia Bool Eqdep_dec Field.
From Verif Require Import M_ECCurve L_Field S_EC L_EC L_EC3 L_Assoc L_Group.
Open Scope Z_scope.

Section Fp.
Variable p : Z.
Hypothesis Hp : prime p.
Let pos : 0 < p. Proof. destruct Hp. lia. Qed.
Record fp := mkFp { fval : Z; fcanon : (fval mod p =? fval) = true }.
Lemma fp_eq (a b : fp) : fval a = fval b -> a = b.
Proof. destruct a as [a Ha], b as [b Hb]. cbn. intros <-. f_equal. apply UIP_dec. decide equality. Qed.
Lemma canon_mod z : (z mod p mod p =? z mod p) = true.
Proof. apply Z.eqb_eq, Z.mod_mod. lia. Qed.
Definition inj (z : Z) : fp := mkFp (z mod p) (canon_mod z).
Lemma inj_eq a b : inj a = inj b <-> cong p a b.
Proof. rewrite (cong_iff p a b pos). split; [intros H; exact (f_equal fval H)|intros H; apply fp_eq; exact H]. Qed.
Lemma inj_val a : inj (fval a) = a.
Proof. apply fp_eq. cbn. apply Z.eqb_eq, fcanon. Qed.
Lemma val_inj z : cong p (fval (inj z)) z.
Proof. apply cong_mod, pos. Qed.
Definition fp_add a b := inj (fval a + fval b).
Definition fp_mul a b := inj (fval a * fval b).
Definition fp_sub a b := inj (fval a - fval b).
Definition fp_opp a := inj (- fval a).
Definition fp_inv a := inj (fval a ^ (p - 2)).
Definition fp_div a b := fp_mul a (fp_inv b).
Lemma inj_add a b : fp_add (inj a) (inj b) = inj (a + b).
Proof. apply inj_eq. apply cong_add; apply val_inj. Qed.
Lemma inj_mul a b : fp_mul (inj a) (inj b) = inj (a * b).
Proof. apply inj_eq. apply cong_mul; apply val_inj. Qed.
Lemma inj_sub a b : fp_sub (inj a) (inj b) = inj (a - b).
Proof. apply inj_eq. apply cong_sub; apply val_inj. Qed.
Lemma inj_opp a : fp_opp (inj a) = inj (- a).
Proof. apply inj_eq. apply cong_opp; apply val_inj. Qed.
Ltac lift_vars := repeat match goal with a : fp |- _ => rewrite <- (inj_val a); generalize (fval a); clear a; intro end.
Lemma fp_field : field_theory (inj 0) (inj 1) fp_add fp_mul fp_sub fp_opp fp_div fp_inv (@eq fp).
Proof.
  split; [split| | |]; intros; unfold fp_div; lift_vars; rewrite ?inj_add, ?inj_mul, ?inj_sub, ?inj_opp, ?inj_add, ?inj_mul;
    try reflexivity; try (f_equal; ring).
  - intros H. apply inj_eq in H. destruct H as [k H]. destruct Hp. assert (k * p = 1) by lia. apply Z.eq_mul_1_nonneg in H2; lia.
  - rename p0 into a. unfold fp_inv. rewrite <- (inj_val a) at 2. rewrite inj_mul. apply inj_eq.
    assert (N : ~ (p | fval a)). { intros D. apply H. rewrite <- (inj_val a). apply inj_eq. apply cong_0, D. }
    pose proof (fermat_cong p _ Hp N) as F. replace (p - 1) with (Z.succ (p - 2)) in F by lia. destruct Hp. rewrite Z.pow_succ_r in F by lia. rewrite Z.mul_comm. exact F.
Qed.
Lemma fp_dec (a b : fp) : {a = b} + {a <> b}.
Proof. destruct (Z.eq_dec (fval a) (fval b)) as [E|N]; [left; apply fp_eq, E|right; congruence]. Qed.
End Fp.
