(** * L_Ecdsa: the points of the ecdsa package (M_Bitcoin) follow the group law *)
From Coq Require Import ZArith Znumtheory Lia ZifyBool Bool List.
From Verif Require Import M_Py M_Float M_ECCurve M_KeyPair M_Crypto M_Bitcoin.
From Verif Require Import L_Field S_EC L_EC S_Group L_Mult L_Bitcoin.
Import ListNotations.
Open Scope Z_scope.

Section Points.
Variable c : curve.
Variable f : curve_fp.
Let p := c_p c.
Hypothesis E : elliptic c.
Hypothesis FP : f_p f = p.
Hypothesis FA : same p (f_a f) (c_a c).
Hypothesis FB : same p (f_b f) (c_b c).
Hypothesis HY : forall Q, point_of c Q -> Q <> (0, 0) -> ~ cong p (snd Q) 0.
Let Hp : prime p. Proof. apply E. Qed.
Let H2 : 2 < p. Proof. apply E. Qed.
Let pos : 0 < p. Proof. lia. Qed.
Local Notation add := (ec_add c).
Local Notation times := (multiple (ec_add c)).
(** [r] stands for the point [Q] *)
Definition erep (r : epoint) (Q : point) : Prop :=
  match r with
  | None => Q = (0, 0)
  | Some (x, y) => Q <> (0, 0) /\ x = fst Q /\ cong p y (snd Q)
  end.
Lemma contains_iff x y : contains_point f x y = true <-> equation p (c_a c) (c_b c) x y.
Proof.
  unfold contains_point, equation. rewrite Z.eqb_eq, FP. rewrite Z.mod_divide by lia. change ((p | y * y - (x * x * x + f_a f * x + f_b f))) with (cong p (y * y) (x * x * x + f_a f * x + f_b f)).
  rewrite same_cong. pose proof FA as A. pose proof FB as B. rewrite same_cong in A, B. rewrite A, B. tauto.
Qed.
Lemma new_ok Q x y : point_of c Q -> Q <> (0, 0) -> x = fst Q -> cong p y (snd Q) -> new_Point f x y = Ok (Some (x, y)).
Proof.
  intros HQ N -> Y. unfold new_Point. rewrite (proj2 (contains_iff _ _)); [reflexivity|]. pose proof (L_Fp2.not_origin c Q HQ N) as EQ. unfold equation in *. rewrite same_cong in *. rewrite Y. exact EQ.
Qed.
Lemma canon_small Q : point_of c Q -> 0 <= fst Q < p /\ 0 <= snd Q < p. Proof. intros [H _]. exact H. Qed.
Lemma mod_eq (Q : Z * Z) z : 0 <= fst Q < p -> cong p (fst Q) z -> z mod p = fst Q.
Proof. intros B C. apply (cong_iff p _ _ pos) in C. rewrite <- C. apply Z.mod_small, B. Qed.
Lemma e_double_ok r Q : point_of c Q -> erep r Q -> exists r', e_double f r = Ok r' /\ erep r' (add Q Q).
Proof.
  intros HQ. destruct r as [[x y]|]; cbn [erep]; [|intros ->; exists None; split; reflexivity]. intros (N & -> & Y). pose proof (HY Q HQ N) as NY.
  destruct (add_cases c E Q Q HQ HQ N N) as [(_ & B & _)|(NT & l & E1 & E2 & [(B & _)|(_ & L)])].
  - exfalso. apply NY. apply (both_signs p _ (snd Q) Hp H2); [reflexivity|exact B].
  - exfalso. apply B. reflexivity.
  - cbn [e_double]. rewrite FP. assert (ND : ~ cong p (2 * y) 0) by (rewrite Y; apply ncong_mul; [exact E|apply ncong_2; exact E|exact NY]).
    destruct (proj1 (inverse_mod_spec (2 * y) p ltac:(lia)) (gcd_prime p _ Hp ND)) as (i & Ei & I). rewrite Ei. cbn [rbind]. rewrite <- FP.
    assert (HL : cong p ((3 * fst Q * fst Q + f_a f) * i mod p) l).
    { rewrite cong_mod by exact pos. apply (cong_cancel p _ _ (2 * y) Hp); [rewrite <- cong_0; exact ND|].
      transitivity ((3 * (fst Q * fst Q) + f_a f) * (i * (2 * y))); [apply cong_eq; ring|]. rewrite I. pose proof FA as A. rewrite same_cong in A. rewrite A, Z.mul_1_r, <- L, Y. reflexivity. }
    cbv zeta. rewrite FP. set (l' := _ mod p) in *. set (T := add Q Q) in *. assert (HT : point_of c T) by (apply add_pt; [exact E|exact HQ|exact HQ]). destruct (canon_small T HT) as (BX & BY).
    assert (X3 : (l' * l' - 2 * fst Q) mod p = fst T). { apply (mod_eq T _ BX). rewrite HL, E1. apply cong_eq. ring. }
    rewrite X3. assert (Y3 : cong p ((l' * (fst Q - fst T) - y) mod p) (snd T)). { rewrite cong_mod by exact pos. rewrite HL, E2, Y. reflexivity. }
    rewrite (new_ok T _ _ HT NT eq_refl Y3). eexists. split; [reflexivity|]. split; [exact NT|]. split; [reflexivity|exact Y3].
Qed.
Lemma e_add_ok r s Q R : point_of c Q -> point_of c R -> erep r Q -> erep s R -> exists r', e_add f r s = Ok r' /\ erep r' (add Q R).
Proof.
  intros HQ HR RQ RR. pose proof (e_double_ok r Q HQ RQ) as DB. destruct s as [[x2 y2]|]; cbn [erep] in RR.
  2:{ rewrite RR, (add_inf c). exists r. split; [destruct r as [[? ?]|]; reflexivity|exact RQ]. }
  destruct r as [[x1 y1]|]; cbn [erep] in RQ.
  2:{ rewrite RQ. exists (Some (x2, y2)). split; [reflexivity|exact RR]. }
  destruct RQ as (NQ & EX1 & Y1), RR as (NR & EX2 & Y2). destruct (canon_small Q HQ) as (BQ & BQ'). destruct (canon_small R HR) as (BR & BR').
  cbn [e_add]. rewrite FP.
  destruct (add_cases c E Q R HQ HR NQ NR) as [(A & B & T)|(N & l & E1 & E2 & [(A & L)|(<- & L)])].
  - assert (X : fst Q = fst R) by (apply (cong_small p); assumption). rewrite EX1, EX2, X, Z.eqb_refl.
    assert (S : (y1 + y2) mod p = 0). { rewrite <- (Z.mod_0_l p) by lia. apply (cong_iff p _ _ pos). rewrite Y1, Y2, B. apply cong_eq. ring. }
    rewrite S, T. exists None. split; reflexivity.
  - destruct (Z.eqb_spec x1 x2) as [X|X]; [exfalso; apply A; apply cong_eq; congruence|].
    assert (ND : ~ cong p (x2 - x1) 0). { intros C. apply A. symmetry. apply (proj2 (cong_0_iff p _ _)). rewrite <- EX1, <- EX2. exact C. }
    destruct (proj1 (inverse_mod_spec (x2 - x1) p ltac:(lia)) (gcd_prime p _ Hp ND)) as (i & Ei & I). rewrite Ei. cbn [rbind]. cbv zeta.
    assert (HL : cong p ((y2 - y1) * i mod p) l).
    { rewrite cong_mod by exact pos. apply (cong_cancel p _ _ (x2 - x1) Hp); [rewrite <- cong_0; exact ND|].
      transitivity ((y2 - y1) * (i * (x2 - x1))); [apply cong_eq; ring|]. rewrite I, Y1, Y2, EX1, EX2. transitivity (- (l * (fst Q - fst R))); [|apply cong_eq; ring]. rewrite L. apply cong_eq. ring. }
    set (l' := _ mod p) in *. set (T := add Q R) in *. assert (HT : point_of c T) by (apply add_pt; [exact E|exact HQ|exact HR]). destruct (canon_small T HT) as (BX & BY).
    assert (X3 : (l' * l' - x1 - x2) mod p = fst T). { apply (mod_eq T _ BX). rewrite HL, E1, EX1, EX2. reflexivity. }
    rewrite X3. assert (Y3 : cong p ((l' * (x1 - fst T) - y1) mod p) (snd T)). { rewrite cong_mod by exact pos. rewrite HL, E2, Y1, EX1. reflexivity. }
    rewrite (new_ok T _ _ HT N eq_refl Y3). eexists. split; [reflexivity|]. split; [exact N|]. split; [reflexivity|exact Y3].
  - rewrite EX1, EX2, Z.eqb_refl. destruct (Z.eqb_spec ((y1 + y2) mod p) 0) as [S|S].
    + exfalso. apply (HY Q HQ NQ). apply (both_signs p _ (snd Q) Hp H2); [reflexivity|]. rewrite <- (Z.mod_0_l p) in S by lia. apply (cong_iff p _ _ pos) in S. rewrite Y1, Y2 in S.
      apply (proj2 (cong_0_iff p _ _)). rewrite <- S. apply cong_eq. ring.
    + rewrite <- EX1, <- EX2 in *. rewrite EX1 in DB |- *. exact DB.
Qed.
(** the opposite point *)
Definition opposite (Q : point) : point := (fst Q, (- snd Q) mod p).
Lemma opposite_pt Q : point_of c Q -> Q <> (0, 0) -> point_of c (opposite Q) /\ opposite Q <> (0, 0).
Proof.
  intros HQ N. pose proof (L_Fp2.not_origin c Q HQ N) as EQ. destruct (canon_small Q HQ) as (B & _). unfold opposite. split.
  - split; [split; [exact B|apply Z.mod_pos_bound; exact pos]|right]. unfold equation in *. cbn [fst snd] in *. rewrite same_cong in *. change (c_p c) with p in EQ |- *. rewrite (cong_mod p) by exact pos. rewrite <- EQ. apply cong_eq. ring.
  - intros X. apply (HY Q HQ N). assert (X2 : (- snd Q) mod p = 0) by congruence. rewrite <- (Z.mod_0_l p) in X2 by lia. apply (cong_iff p _ _ pos) in X2.
    replace (snd Q) with (- - snd Q) by ring. rewrite X2. reflexivity.
Qed.
Lemma opposite_sum Q : point_of c Q -> Q <> (0, 0) -> add Q (opposite Q) = (0, 0).
Proof.
  intros HQ N. destruct (opposite_pt Q HQ N) as (HO & NO). pose proof (HY Q HQ N) as NY.
  destruct (add_cases c E Q (opposite Q) HQ HO N NO) as [(_ & _ & T)|(_ & l & _ & _ & [(A & _)|(A & _)])]; [exact T| |].
  - exfalso. apply A. reflexivity.
  - exfalso. apply NY. apply (both_signs p _ (snd Q) Hp H2); [reflexivity|]. rewrite A at 1. unfold opposite. cbn [snd]. apply cong_mod, pos.
Qed.
Lemma shift_step e j : 0 <= e -> Z.shiftr e (Z.of_nat j) = 2 * Z.shiftr e (Z.of_nat (S j)) + (if Z.testbit e (Z.of_nat j) then 1 else 0).
Proof.
  intros H. rewrite Nat2Z.inj_succ, <- Z.add_1_r. rewrite <- (Z.shiftr_shiftr e (Z.of_nat j) 1) by lia. rewrite <- Z.div2_spec. rewrite (Z.div2_odd (Z.shiftr e (Z.of_nat j))) at 1.
  replace (Z.odd (Z.shiftr e (Z.of_nat j))) with (Z.testbit e (Z.of_nat j)); [destruct (Z.testbit _ _); reflexivity|]. rewrite <- Z.bit0_odd, Z.shiftr_spec by lia. reflexivity.
Qed.
Lemma e_mul_loop_ok Q s t e3 e : point_of c Q -> Q <> (0, 0) -> erep s Q -> erep t (opposite Q) -> 0 <= e <= e3 -> forall j result,
  erep result (times (Z.shiftr e3 (Z.of_nat (S j)) - Z.shiftr e (Z.of_nat (S j))) Q) ->
  exists r', e_mul_loop f s t e3 e j result = Ok r' /\ erep r' (times (Z.shiftr e3 1 - Z.shiftr e 1) Q).
Proof.
  intros HQ N Rs Rt B. assert (Pt : forall k, point_of c (times k Q)) by (intros k; apply times_pt; [exact E|exact HQ]).
  destruct (opposite_pt Q HQ N) as (HO & NO). pose proof (opposite_sum Q HQ N) as OS.
  induction j as [|j IH]; intros result R; [exists result; split; [reflexivity|exact R]|]. cbn [e_mul_loop].
  assert (Mono : forall i, 0 <= i -> Z.shiftr e i <= Z.shiftr e3 i). { intros i I. rewrite !Z.shiftr_div_pow2 by exact I. apply Z.div_le_mono; lia. }
  pose proof (Mono (Z.of_nat (S j)) ltac:(lia)) as M1. pose proof (Mono (Z.of_nat (S (S j))) ltac:(lia)) as M2.
  rewrite (shift_step e3 (S j)), (shift_step e (S j)) in * by lia. set (m := Z.shiftr e3 (Z.of_nat (S (S j))) - Z.shiftr e (Z.of_nat (S (S j)))) in *.
  destruct (e_double_ok result _ (Pt m) R) as (r1 & E1 & R1). rewrite E1. cbn [rbind]. rewrite <- times_add in R1 by (try exact E; try exact HQ; lia).
  destruct (Z.testbit e3 (Z.of_nat (S j))) eqn:T3, (Z.testbit e (Z.of_nat (S j))) eqn:T1; cbn [negb andb rbind].
  - apply IH. replace (_ + 1 - _) with (m + m) by lia. exact R1.
  - destruct (e_add_ok r1 s _ _ (Pt (m + m)) HQ R1 Rs) as (r2 & E2 & R2). rewrite E2. cbn [rbind]. apply IH. replace (_ + 1 - _) with (m + m + 1) by lia.
    rewrite times_add, (times_1 c) by (try exact E; try exact HQ; lia). exact R2.
  - destruct (e_add_ok r1 t _ _ (Pt (m + m)) HO R1 Rt) as (r2 & E2 & R2). rewrite E2. cbn [rbind]. apply IH. replace (_ + 0 - _) with (m + m - 1) by lia.
    replace (m + m) with (m + m - 1 + 1) in R2 by lia. rewrite times_add, (times_1 c) in R2 by (try exact E; try exact HQ; lia).
    rewrite (assoc c E) in R2 by (try apply Pt; assumption). rewrite OS, (add_inf c) in R2. exact R2.
  - apply IH. replace (_ + 0 - _) with (m + m) by lia. exact R1.
Qed.
Theorem e_mul_ok r Q o e : point_of c Q -> erep r Q -> match o with Some n => 0 < n | None => 0 <= e end ->
  exists r', e_mul f r o e = Ok r' /\ erep r' (times (match o with Some n => e mod n | None => e end) Q).
Proof.
  intros HQ R O. unfold e_mul. set (e' := match o with Some n => e mod n | None => e end).
  assert (P : 0 <= e'). { unfold e'. destruct o; [apply Z.mod_pos_bound; lia|exact O]. }
  destruct (Z.eqb_spec e' 0) as [->|NE]; [exists None; split; reflexivity|]. destruct r as [[x y]|]; [|cbn [erep] in R; rewrite R, (times_inf c); exists None; split; reflexivity].
  replace (e' >? 0) with true by lia. destruct R as (N & -> & Y). destruct (opposite_pt Q HQ N) as (HO & NO).
  assert (YO : cong p (- y) (snd (opposite Q))). { unfold opposite. cbn [snd]. rewrite cong_mod by exact pos. rewrite Y. reflexivity. }
  cbv zeta. rewrite (new_ok (opposite Q) (fst Q) (- y) HO NO eq_refl YO). cbn [rbind].
  assert (L1 : 1 <= Z.log2 (3 * e')). { change 1 with (Z.log2 2). apply Z.log2_le_mono. lia. }
  destruct (e_mul_loop_ok Q (Some (fst Q, y)) (Some (fst Q, - y)) (3 * e') e' HQ N) with (j := Z.to_nat (Z.log2 (3 * e') - 1)) (result := Some (fst Q, y)) as (r' & E' & R').
  - split; [exact N|]. split; [reflexivity|exact Y].
  - split; [exact NO|]. split; [reflexivity|exact YO].
  - lia.
  - rewrite Nat2Z.inj_succ, Z2Nat.id by lia. replace (Z.succ (Z.log2 (3 * e') - 1)) with (Z.log2 (3 * e')) by lia. rewrite !Z.shiftr_div_pow2 by lia.
    pose proof (Z.log2_spec (3 * e') ltac:(lia)) as [La Lb]. rewrite Z.pow_succ_r in Lb by lia.
    rewrite (Z.div_small e') by lia. replace (3 * e' / 2 ^ Z.log2 (3 * e')) with 1; [rewrite (times_1 c); split; [exact N|split; [reflexivity|exact Y]]|].
    apply (Z.div_unique (3 * e') _ 1 (3 * e' - 2 ^ Z.log2 (3 * e'))); lia.
  - exists r'. split; [exact E'|]. replace (Z.shiftr (3 * e') 1 - Z.shiftr e' 1) with e' in R'; [exact R'|]. rewrite !Z.shiftr_div_pow2 by lia. change (2 ^ 1) with 2.
    pose proof (Z.div_mod e' 2 ltac:(lia)). pose proof (Z.mod_pos_bound e' 2 ltac:(lia)). pose proof (Z.div_mod (3 * e') 2 ltac:(lia)). pose proof (Z.mod_pos_bound (3 * e') 2 ltac:(lia)). lia.
Qed.
End Points.
