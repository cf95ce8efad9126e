(** * L_Bitcoin: the arithmetic of M_Bitcoin computes modular inverses and curve sums *)
From Coq Require Import ZArith Znumtheory Lia ZifyBool Bool List Field.
From Verif Require Import M_Py M_Float M_ECCurve M_KeyPair M_Crypto M_Bitcoin.
From Verif Require Import L_Field S_EC L_EC S_Group L_Mult.
Import ListNotations.
Open Scope Z_scope.

(** ** inv *)
Lemma inv_loop_spec n a k : forall fuel lm hm low high, 0 < low < high -> low < 2 ^ Z.of_nat k -> (2 * k + 1 <= fuel)%nat ->
  Z.gcd low high = 1 -> cong n (lm * a) low -> cong n (hm * a) high -> cong n (inv_loop fuel lm hm low high * a) 1.
Proof.
  assert (Step : forall lm hm low high, 1 < low < high -> Z.gcd low high = 1 -> cong n (lm * a) low -> cong n (hm * a) high ->
    let new := high - low * (high / low) in 0 < new < low /\ Z.gcd new low = 1 /\ cong n ((hm - lm * (high / low)) * a) new).
  { intros lm hm low high B G E1 E2 new. assert (N : new = high mod low) by (unfold new; pose proof (Z.div_mod high low ltac:(lia)); lia).
    pose proof (Z.mod_pos_bound high low ltac:(lia)) as M. assert (G' : Z.gcd new low = 1). { rewrite N, Z.gcd_mod by lia. exact G. }
    split; [|split; [exact G'|]].
    - split; [|lia]. destruct (Z.eq_dec new 0) as [Z0|]; [|lia]. rewrite Z0, Z.gcd_0_l in G'. lia.
    - unfold new. replace ((hm - lm * (high / low)) * a) with (hm * a - (lm * a) * (high / low)) by ring. rewrite E1, E2. reflexivity. }
  induction k as [|k IH]; intros fuel lm hm low high B K F G E1 E2.
  - cbn in K. assert (low = 1) by lia. subst low. destruct fuel as [|f]; [lia|]. cbn [inv_loop]. change (1 >? 1) with false. exact E1.
  - destruct fuel as [|f]; [lia|]. cbn [inv_loop]. destruct (Z.gtb_spec low 1) as [L|L]; [|assert (low = 1) as -> by lia; exact E1].
    destruct (Step lm hm low high ltac:(lia) G E1 E2) as (B1 & G1 & E3). cbv zeta in *. set (r := high / low) in *. set (new := high - low * r) in *.
    destruct f as [|f]; [lia|]. cbn [inv_loop]. destruct (Z.gtb_spec new 1) as [L1|L1]; [|assert (X : new = 1) by lia; rewrite <- X; exact E3].
    destruct (Step (hm - lm * r) lm new low ltac:(lia) G1 E3 E1) as (B2 & G2 & E4). cbv zeta in *. set (r2 := low / new) in *. set (new2 := low - new * r2) in *.
    apply IH; try assumption; [|lia].
    assert (R2 : new2 = low mod new) by (unfold new2, r2; pose proof (Z.div_mod low new ltac:(lia)); lia).
    assert (1 <= r2) by (unfold r2; apply Z.div_le_lower_bound; lia). assert (2 * new2 < low) by nia.
    rewrite Nat2Z.inj_succ, Z.pow_succ_r in K by lia. lia.
Qed.
Lemma bit_length_bound z : 0 < z -> z < 2 ^ bit_length z /\ 0 < bit_length z.
Proof.
  intros H. unfold bit_length. destruct (Z.eqb_spec z 0) as [|N]; [lia|]. rewrite ?Z.abs_eq by lia. pose proof (Z.log2_spec z H). pose proof (Z.log2_nonneg z). rewrite <- Z.add_1_r in *. lia.
Qed.
Lemma inv_spec a n : 1 < n -> Z.gcd a n = 1 -> cong n (inv a n * a) 1 /\ 0 <= inv a n < n.
Proof.
  intros N G. unfold inv. destruct (Z.eqb_spec a 0) as [->|A]; [rewrite Z.gcd_0_l in G; lia|].
  split; [|apply Z.mod_pos_bound; lia]. rewrite cong_mod by lia.
  pose proof (Z.mod_pos_bound a n ltac:(lia)) as M. assert (G' : Z.gcd (a mod n) n = 1) by (rewrite Z.gcd_mod by lia; rewrite Z.gcd_comm; exact G).
  assert (M0 : a mod n <> 0). { intros X. rewrite X, Z.gcd_0_l in G'. lia. }
  destruct (bit_length_bound n ltac:(lia)) as (B1 & B2).
  apply (inv_loop_spec n a (Z.to_nat (bit_length n))); try assumption; try lia.
  - rewrite Z2Nat.id by lia. lia.
  - rewrite Z.mul_1_l. symmetry. apply cong_mod. lia.
  - rewrite Z.mul_0_l. symmetry. apply cong_p_0.
Qed.
Lemma gcd_prime p a : prime p -> ~ cong p a 0 -> Z.gcd a p = 1.
Proof. intros Hp N. apply Zgcd_1_rel_prime. apply rel_prime_sym, prime_rel_prime; [exact Hp|]. rewrite <- cong_0. exact N. Qed.
Lemma inv_prime a p : prime p -> ~ cong p a 0 -> cong p (inv a p * a) 1 /\ 0 <= inv a p < p.
Proof. intros Hp N. apply inv_spec; [apply prime_pos, Hp|]. apply gcd_prime; assumption. Qed.

(** ** inverse_mod *)
Lemma imod_loop_spec m a k : forall fuel c d uc ud, 0 <= c < d -> c < 2 ^ Z.of_nat k -> (2 * k + 1 <= fuel)%nat ->
  cong m (uc * a) c -> cong m (ud * a) d -> let '(g, u) := inverse_mod_loop fuel c d uc ud in g = Z.gcd c d /\ cong m (u * a) g.
Proof.
  induction k as [|k IH]; intros fuel c d uc ud B K F E1 E2.
  - cbn in K. assert (c = 0) by lia. subst c. destruct fuel as [|f]; [lia|]. cbn [inverse_mod_loop]. rewrite Z.eqb_refl. rewrite Z.gcd_0_l, Z.abs_eq by lia. split; [reflexivity|exact E2].
  - destruct fuel as [|f]; [lia|]. cbn [inverse_mod_loop]. destruct (Z.eqb_spec c 0) as [->|C]; [rewrite Z.gcd_0_l, Z.abs_eq by lia; split; [reflexivity|exact E2]|].
    pose proof (Z.mod_pos_bound d c ltac:(lia)) as M. pose proof (Z.div_mod d c ltac:(lia)) as D.
    assert (E3 : cong m ((ud - d / c * uc) * a) (d mod c)). { replace ((ud - d / c * uc) * a) with (ud * a - d / c * (uc * a)) by ring. rewrite E1, E2. apply cong_eq. lia. }
    assert (G3 : Z.gcd (d mod c) c = Z.gcd c d) by (rewrite Z.gcd_mod by lia; reflexivity).
    destruct f as [|f]; [lia|]. cbn [inverse_mod_loop]. destruct (Z.eqb_spec (d mod c) 0) as [Z0|C1].
    { rewrite Z0, Z.gcd_0_l, Z.abs_eq in G3 by lia. split; [exact G3|exact E1]. }
    pose proof (Z.mod_pos_bound c (d mod c) ltac:(lia)) as M2. pose proof (Z.div_mod c (d mod c) ltac:(lia)) as D2.
    assert (E4 : cong m ((uc - c / (d mod c) * (ud - d / c * uc)) * a) (c mod (d mod c))).
    { replace ((uc - c / (d mod c) * (ud - d / c * uc)) * a) with (uc * a - c / (d mod c) * ((ud - d / c * uc) * a)) by ring. rewrite E3, E1. apply cong_eq. lia. }
    assert (H1 : 1 <= c / (d mod c)) by (apply Z.div_le_lower_bound; lia). rewrite Nat2Z.inj_succ, Z.pow_succ_r in K by lia.
    specialize (IH f (c mod (d mod c)) (d mod c) (uc - c / (d mod c) * (ud - d / c * uc)) (ud - d / c * uc) ltac:(lia) ltac:(nia) ltac:(lia) E4 E3).
    destruct (inverse_mod_loop _ _ _ _ _) as [g u]. rewrite Z.gcd_mod, G3 in IH by lia. exact IH.
Qed.
Lemma inverse_mod_spec a m : 1 < m ->
  (Z.gcd a m = 1 -> exists i, inverse_mod a m = Ok i /\ cong m (i * a) 1) /\ (Z.gcd a m <> 1 -> inverse_mod a m = Raise AssertionError).
Proof.
  intros N. unfold inverse_mod. set (a' := if _ || _ then a mod m else a).
  assert (A : 0 <= a' < m /\ cong m a' a /\ Z.gcd a' m = Z.gcd a m).
  { unfold a'. destruct ((a <? 0) || (m <=? a)) eqn:T; [|split; [lia|split; reflexivity]].
    split; [apply Z.mod_pos_bound; lia|]. split; [apply cong_mod; lia|]. rewrite Z.gcd_mod by lia. apply Z.gcd_comm. }
  destruct A as (B & C & G). destruct (bit_length_bound m ltac:(lia)) as (B1 & B2).
  pose proof (imod_loop_spec m a (Z.to_nat (bit_length m)) (Z.to_nat (2 * bit_length m) + 2) a' m 1 0 B) as I.
  rewrite Z2Nat.id in I by lia. specialize (I ltac:(lia) ltac:(lia)). rewrite Z.mul_1_l, Z.mul_0_l in I. specialize (I (cong_sym _ _ _ C) (cong_sym _ _ _ (cong_p_0 m))).
  destruct (inverse_mod_loop _ _ _ _ _) as [g u]. destruct I as (Eg & U). rewrite G in Eg. split; intros X; rewrite <- Eg in X.
  - rewrite X in *. cbn. eexists. split; [reflexivity|]. destruct (u >? 0); [exact U|]. transitivity (u * a); [exists a; ring|exact U].
  - apply Z.eqb_neq in X. rewrite X. reflexivity.
Qed.

(** ** Jacobian coordinates *)
#[local] Instance cong_pow_m p : Morphisms.Proper (Morphisms.respectful (cong p) (Morphisms.respectful eq (cong p))) Z.pow.
Proof. intros a b H n ? <-. apply cong_pow, H. Qed.
Lemma double_alg p a a' x y l x3 y3 X Y Z ysq S M nx ny nz : cong p a' a -> cong p X (x * Z ^ 2) -> cong p Y (y * Z ^ 3) ->
  cong p (l * (2 * y)) (3 * (x * x) + a) -> cong p x3 (l * l - x - x) -> cong p y3 (l * (x - x3) - y) ->
  cong p ysq (Y ^ 2) -> cong p S (4 * X * ysq) -> cong p M (3 * X ^ 2 + a' * Z ^ 4) ->
  cong p nx (M ^ 2 - 2 * S) -> cong p ny (M * (S - nx) - 8 * ysq ^ 2) -> cong p nz (2 * Y * Z) ->
  cong p nx (x3 * nz ^ 2) /\ cong p ny (y3 * nz ^ 3).
Proof.
  intros EA EX EY EL E3 E4 E5 ES EM ENX ENY ENZ.
  assert (W : cong p nz (2 * y * Z ^ 4)). { rewrite ENZ, EY. apply cong_eq. ring. }
  assert (HS : cong p S (x * nz ^ 2)). { rewrite W, ES, E5, EX, EY. apply cong_eq. ring. }
  assert (HM : cong p M (l * nz)).
  { rewrite W. transitivity (Z ^ 4 * (l * (2 * y))); [|apply cong_eq; ring]. rewrite EL, EM, EA, EX. apply cong_eq. ring. }
  assert (HQ : cong p (8 * ysq ^ 2) (y * nz ^ 3)). { rewrite W, E5, EY. apply cong_eq. ring. }
  assert (HX : cong p nx (x3 * nz ^ 2)). { rewrite ENX, HM, HS, E3. apply cong_eq. ring. }
  split; [exact HX|]. rewrite ENY, HX, HM, HS, HQ, E4. apply cong_eq. ring.
Qed.
Lemma add_alg p x1 y1 x2 y2 l x3 y3 X1 Y1 Z1 X2 Y2 Z2 U1 U2 S1 S2 H2 H3 UH nx ny nz :
  cong p X1 (x1 * Z1 ^ 2) -> cong p Y1 (y1 * Z1 ^ 3) -> cong p X2 (x2 * Z2 ^ 2) -> cong p Y2 (y2 * Z2 ^ 3) ->
  cong p (l * (x1 - x2)) (y1 - y2) -> cong p x3 (l * l - x1 - x2) -> cong p y3 (l * (x1 - x3) - y1) ->
  cong p U1 (X1 * Z2 ^ 2) -> cong p U2 (X2 * Z1 ^ 2) -> cong p S1 (Y1 * Z2 ^ 3) -> cong p S2 (Y2 * Z1 ^ 3) ->
  cong p H2 ((U2 - U1) * (U2 - U1)) -> cong p H3 ((U2 - U1) * H2) -> cong p UH (U1 * H2) ->
  cong p nx ((S2 - S1) ^ 2 - H3 - 2 * UH) -> cong p ny ((S2 - S1) * (UH - nx) - S1 * H3) -> cong p nz ((U2 - U1) * Z1 * Z2) ->
  cong p nx (x3 * nz ^ 2) /\ cong p ny (y3 * nz ^ 3).
Proof.
  intros EX1 EY1 EX2 EY2 EL E3 E4 EU1 EU2 ES1 ES2 EH2 EH3 EUH ENX ENY ENZ. set (t := Z1 * Z2).
  assert (V1 : cong p U1 (x1 * t ^ 2)). { rewrite EU1, EX1. apply cong_eq. unfold t. ring. }
  assert (V2 : cong p U2 (x2 * t ^ 2)). { rewrite EU2, EX2. apply cong_eq. unfold t. ring. }
  assert (W1 : cong p S1 (y1 * t ^ 3)). { rewrite ES1, EY1. apply cong_eq. unfold t. ring. }
  assert (W2 : cong p S2 (y2 * t ^ 3)). { rewrite ES2, EY2. apply cong_eq. unfold t. ring. }
  assert (W : cong p nz ((x2 - x1) * t ^ 3)). { rewrite ENZ, V1, V2. apply cong_eq. unfold t. ring. } clearbody t.
  assert (HH : cong p (U2 - U1) ((x2 - x1) * t ^ 2)). { rewrite V1, V2. apply cong_eq. ring. }
  assert (HR : cong p (S2 - S1) (l * nz)).
  { rewrite W. transitivity (- (l * (x1 - x2)) * t ^ 3); [|apply cong_eq; ring]. rewrite EL, W1, W2. apply cong_eq. ring. }
  assert (K2 : cong p H2 (((x2 - x1) * t ^ 2) ^ 2)). { rewrite EH2, HH. apply cong_eq. ring. }
  assert (K3 : cong p H3 ((x2 - x1) * nz ^ 2)). { rewrite EH3, HH, K2, W. apply cong_eq. ring. }
  assert (KU : cong p UH (x1 * nz ^ 2)). { rewrite EUH, V1, K2, W. apply cong_eq. ring. }
  assert (KS : cong p (S1 * H3) (y1 * nz ^ 3)). { rewrite W1, K3, W. apply cong_eq. ring. }
  assert (HX : cong p nx (x3 * nz ^ 2)). { rewrite ENX, HR, K3, KU, E3. apply cong_eq. ring. }
  split; [exact HX|]. rewrite ENY, HX, HR, KU, KS, E4. apply cong_eq. ring.
Qed.

Section Jacobian.
Variable c : curve.
Variable cp : curve_params.
Let p := c_p c.
Hypothesis E : elliptic c.
Hypothesis HP : cp_p cp = p.
Hypothesis HA : same p (cp_a cp) (c_a c).
Hypothesis HY : forall Q, point_of c Q -> Q <> (0, 0) -> ~ cong p (snd Q) 0.
Let Hp : prime p. Proof. apply E. Qed.
Let H2 : 2 < p. Proof. apply E. Qed.
Let pos : 0 < p. Proof. lia. Qed.
Local Notation add := (ec_add c).
Local Notation times := (multiple (ec_add c)).
(** [J] stands for the point [Q] *)
Definition jrep (J : jacobian) (Q : point) : Prop :=
  let '(X, Y, Z) := J in
  (Q = (0, 0) /\ X = 0 /\ Y = 0) \/
  (Q <> (0, 0) /\ ~ cong p Z 0 /\ cong p X (fst Q * Z ^ 2) /\ cong p Y (snd Q * Z ^ 3)).
Lemma ncong_mul x y : ~ cong p x 0 -> ~ cong p y 0 -> ~ cong p (x * y) 0.
Proof. intros A B C. apply cong_mul_0 in C; [tauto|exact Hp]. Qed.
Lemma ncong_pow x k : 0 <= k -> ~ cong p x 0 -> ~ cong p (x ^ k) 0.
Proof.
  intros K N. revert k K. apply natlike_ind.
  - rewrite Z.pow_0_r. intros C. apply cong_0, Z.divide_pos_le in C; lia.
  - intros k K IH. rewrite Z.pow_succ_r by exact K. apply ncong_mul; assumption.
Qed.
Lemma ncong_2 : ~ cong p 2 0. Proof. intros C. apply cong_0, Z.divide_pos_le in C; lia. Qed.
Lemma jrep_y J Q : point_of c Q -> jrep J Q -> (snd (fst J) =? 0) = true <-> Q = (0, 0).
Proof.
  destruct J as [[X Y] Z]. cbn [fst snd]. intros HQ [(-> & -> & ->)|(N & NZ & EX & EY)]; [split; reflexivity|]. rewrite Z.eqb_eq. split; [|tauto]. intros ->. exfalso.
  apply (ncong_mul (snd Q) (Z ^ 3)); [apply HY; assumption|apply ncong_pow; [lia|exact NZ]|]. symmetry. exact EY.
Qed.
Lemma cancel_r x y z : ~ cong p z 0 -> cong p (x * z) (y * z) -> cong p x y.
Proof. intros N. apply cong_cancel; [exact Hp|]. rewrite <- cong_0. exact N. Qed.
(** the sum of two points, by cases *)
Lemma add_cases Q R : point_of c Q -> point_of c R -> Q <> (0, 0) -> R <> (0, 0) ->
  (cong p (fst Q) (fst R) /\ cong p (snd Q) (- snd R) /\ add Q R = (0, 0)) \/
  (add Q R <> (0, 0) /\ exists l, cong p (fst (add Q R)) (l * l - fst Q - fst R) /\ cong p (snd (add Q R)) (l * (fst Q - fst (add Q R)) - snd Q) /\
     ((~ cong p (fst Q) (fst R) /\ cong p (l * (fst Q - fst R)) (snd Q - snd R)) \/
      (Q = R /\ cong p (l * (2 * snd Q)) (3 * (fst Q * fst Q) + c_a c)))).
Proof.
  intros HQ HR NQ NR. pose proof (ec_add_sum c Q R Hp H2 HQ HR) as S. remember (add Q R) as T eqn:ET. clear ET. destruct E as (e1 & e2 & e3 & e4).
  pose proof (L_Fp2.not_origin c Q HQ NQ) as EQ. pose proof (L_Fp2.not_origin c R HR NR) as ER. unfold equation in EQ, ER. rewrite same_cong in EQ, ER.
  destruct S as [R|Q|x1 y1 x2 y2 N1 N2 X1 Y1|x1 y1 x2 y2 l x3 y3 N1 N2 X1 L E1 E2 C|x1 y1 x2 y2 l x3 y3 N1 N2 X1 Y1 Y2 L E1 E2 C]; try congruence; rewrite ?same_cong in *; cbn [fst snd] in *.
  - left. split; [exact X1|split; [exact Y1|reflexivity]].
  - right. split.
    + apply (L_Fp2.origin_off c e4). unfold equation. rewrite same_cong. apply (third_point p (c_a c) (c_b c) x1 y1 x2 l); try assumption. left. split; [exact X1|]. exists y2. split; assumption.
    + exists l. split; [exact E1|]. split; [exact E2|]. left. split; assumption.
  - right. assert (Q : (x1, y1) = (x2, y2)) by (apply (canon_eq p); [apply HQ|apply HR|exact X1|exact Y1]). split.
    + apply (L_Fp2.origin_off c e4). unfold equation. rewrite same_cong. apply (third_point p (c_a c) (c_b c) x1 y1 x1 l); try assumption. right. split; [reflexivity|exact L].
    + exists l. split; [assert (x2 = x1) as -> by congruence; exact E1|]. split; [exact E2|]. right. split; assumption.
Qed.
Lemma jdouble_ok J Q : point_of c Q -> jrep J Q -> jrep (jacobian_double cp J) (add Q Q).
Proof.
  intros HQ R. pose proof (jrep_y J Q HQ R) as J0. destruct J as [[X Y] Z]. cbn [fst snd] in J0. unfold jacobian_double. cbv zeta.
  destruct (Y =? 0) eqn:Y0.
  - rewrite (proj1 J0 eq_refl). left. split; [reflexivity|split; reflexivity].
  - assert (N : Q <> (0, 0)). { intros X0. apply J0 in X0. discriminate. } destruct R as [(X0 & _)|(_ & NZ & EX & EY)]; [tauto|].
    pose proof (HY Q HQ N) as NY. right. destruct (add_cases Q Q HQ HQ N N) as [(_ & B & _)|(NT & l & E1 & E2 & [(B & _)|(_ & L)])].
    + exfalso. apply NY. apply (both_signs p _ (snd Q) Hp H2); [reflexivity|exact B].
    + exfalso. apply B. reflexivity.
    + split; [exact NT|]. rewrite HP. split.
      * rewrite cong_mod by exact pos. apply ncong_mul; [apply ncong_mul; [exact ncong_2|]|exact NZ]. rewrite EY. apply ncong_mul; [exact NY|apply ncong_pow; [lia|exact NZ]].
      * eapply (double_alg p (c_a c) (cp_a cp)); try exact E1; try exact E2; try exact EX; try exact EY; try exact L; try (apply cong_mod; exact pos). exact HA.
Qed.
Lemma jadd_ok J K Q R : point_of c Q -> point_of c R -> jrep J Q -> jrep K R -> jrep (jacobian_add cp J K) (add Q R).
Proof.
  intros HQ HR RJ RK. pose proof (jrep_y J Q HQ RJ) as J0. pose proof (jrep_y K R HR RK) as K0. pose proof (jdouble_ok J Q HQ RJ) as DJ.
  destruct J as [[X1 Y1] Z1], K as [[X2 Y2] Z2]. cbn [fst snd] in J0, K0. unfold jacobian_add. cbv zeta.
  destruct (Y1 =? 0) eqn:F1; [rewrite (proj1 J0 eq_refl); exact RK|]. destruct (Y2 =? 0) eqn:F2; [rewrite (proj1 K0 eq_refl), (add_inf c); exact RJ|].
  assert (NQ : Q <> (0, 0)). { intros X0. apply J0 in X0. discriminate. } assert (NR : R <> (0, 0)). { intros X0. apply K0 in X0. discriminate. }
  destruct RJ as [(X0 & _)|(_ & NZ1 & EX1 & EY1)]; [tauto|]. destruct RK as [(X0 & _)|(_ & NZ2 & EX2 & EY2)]; [tauto|]. rewrite HP.
  assert (NT : ~ cong p ((Z1 * Z2) ^ 2) 0) by (apply ncong_pow; [lia|apply ncong_mul; assumption]).
  assert (NT3 : ~ cong p ((Z1 * Z2) ^ 3) 0) by (apply ncong_pow; [lia|apply ncong_mul; assumption]).
  assert (CU : cong p (fst Q) (fst R) <-> X1 * Z2 ^ 2 mod p = X2 * Z1 ^ 2 mod p).
  { rewrite <- (cong_iff p _ _ pos). rewrite EX1, EX2. split; [intros C; rewrite C; apply cong_eq; ring|]. intros C. apply (cancel_r _ _ _ NT).
    replace (fst Q * (Z1 * Z2) ^ 2) with (fst Q * Z1 ^ 2 * Z2 ^ 2) by ring. rewrite C. apply cong_eq. ring. }
  assert (CS : cong p (snd Q) (snd R) <-> Y1 * Z2 ^ 3 mod p = Y2 * Z1 ^ 3 mod p).
  { rewrite <- (cong_iff p _ _ pos). rewrite EY1, EY2. split; [intros C; rewrite C; apply cong_eq; ring|]. intros C. apply (cancel_r _ _ _ NT3).
    replace (snd Q * (Z1 * Z2) ^ 3) with (snd Q * Z1 ^ 3 * Z2 ^ 3) by ring. rewrite C. apply cong_eq. ring. }
  destruct (add_cases Q R HQ HR NQ NR) as [(A & B & T)|(N & l & E1 & E2 & [(A & L)|(<- & L)])].
  - rewrite (proj1 CU A), Z.eqb_refl. destruct (Z.eqb_spec (Y1 * Z2 ^ 3 mod p) (Y2 * Z1 ^ 3 mod p)) as [S|S]; cbn [negb].
    + exfalso. apply CS in S. apply (HY Q HQ NQ). apply (both_signs p _ (snd R) Hp H2); assumption.
    + rewrite T. left. split; [reflexivity|split; reflexivity].
  - destruct (Z.eqb_spec (X1 * Z2 ^ 2 mod p) (X2 * Z1 ^ 2 mod p)) as [U|U]; [apply CU in U; tauto|]. right. split; [exact N|]. split.
    + rewrite !(cong_mod p) by exact pos. apply ncong_mul; [apply ncong_mul|]; try assumption. intros C. apply A. apply CU. symmetry. apply (proj1 (cong_iff p _ _ pos)). apply (proj2 (cong_0_iff p _ _)). exact C.
    + eapply (add_alg p (fst Q) (snd Q) (fst R) (snd R) l _ _ X1 Y1 Z1 X2 Y2 Z2); [exact EX1|exact EY1|exact EX2|exact EY2|exact L|exact E1|exact E2|..]; apply cong_mod; exact pos.
  - rewrite (proj1 CU ltac:(reflexivity)), Z.eqb_refl, (proj1 CS ltac:(reflexivity)), Z.eqb_refl. exact DJ.
Qed.
Lemma jmul_pos_ok J Q : point_of c Q -> jrep J Q -> forall n, jrep (jacobian_multiply_pos cp J n) (times (Zpos n) Q).
Proof.
  intros HQ RJ. assert (Pt : forall k, point_of c (times k Q)) by (intros k; apply times_pt; [exact E|exact HQ]).
  induction n as [n IH|n IH|]; cbn [jacobian_multiply_pos].
  - replace (Zpos n~1) with (Zpos n + Zpos n + 1) by lia. rewrite !times_add by (try exact E; try exact HQ; lia). rewrite (times_1 c).
    apply jadd_ok; [apply add_pt; [exact E|apply Pt|apply Pt]|exact HQ| |exact RJ]. apply jdouble_ok; [apply Pt|exact IH].
  - replace (Zpos n~0) with (Zpos n + Zpos n) by lia. rewrite !times_add by (try exact E; try exact HQ; lia). apply jdouble_ok; [apply Pt|exact IH].
  - rewrite (times_1 c). exact RJ.
Qed.
Lemma from_ok J Q : point_of c Q -> jrep J Q -> from_jacobian cp J = Q.
Proof.
  intros HQ. destruct J as [[X Y] Z]. unfold from_jacobian. cbv zeta. rewrite HP. intros [(-> & -> & ->)|(N & NZ & EX & EY)]; [rewrite !Z.mul_0_l, Z.mod_0_l by lia; reflexivity|].
  destruct (inv_prime Z p Hp NZ) as (I & _). apply (canon_eq p); [split; apply Z.mod_pos_bound; exact pos|apply HQ| |]; cbn [fst snd]; rewrite cong_mod by exact pos.
  - rewrite EX. transitivity (fst Q * (inv Z p * Z) ^ 2); [apply cong_eq; ring|]. rewrite I. apply cong_eq. ring.
  - rewrite EY. transitivity (snd Q * (inv Z p * Z) ^ 3); [apply cong_eq; ring|]. rewrite I. apply cong_eq. ring.
Qed.
Theorem fast_multiply_ok Q n : point_of c Q -> 1 < cp_n cp ->
  fast_multiply cp Q n = times (if (n <? 0) || (n >=? cp_n cp) then n mod cp_n cp else n) Q.
Proof.
  intros HQ HN. assert (RJ : jrep (to_jacobian Q) Q).
  { unfold to_jacobian, jrep. destruct Q as [x y]. cbn [fst snd]. destruct (iszero (x, y)) eqn:I; [apply iszero_iff in I; left; split; [exact I|]; split; congruence|].
    apply iszero_false in I. right. split; [exact I|]. split; [intros C; apply cong_0, Z.divide_pos_le in C; lia|]. split; apply cong_eq; ring. }
  unfold fast_multiply. pose proof (jrep_y _ _ HQ RJ) as J0. unfold jacobian_multiply. destruct (to_jacobian Q) as [[a0 a1] a2] eqn:EJ. cbn [fst snd] in J0.
  set (m := if _ || _ then n mod cp_n cp else n). destruct (a1 =? 0) eqn:A1; cbn [orb].
  { rewrite (proj1 J0 eq_refl), (times_inf c). apply from_ok; [apply inf_pt, E|]. left. split; [reflexivity|split; reflexivity]. }
  destruct (Z.eqb_spec n 0) as [->|N0].
  { unfold m. replace (0 >=? cp_n cp) with false by lia. cbn [Z.ltb Z.compare orb]. apply from_ok; [apply inf_pt, E|]. left. split; [reflexivity|split; reflexivity]. }
  destruct (Z.eqb_spec n 1) as [->|N1].
  { unfold m. replace (1 >=? cp_n cp) with false by lia. cbn [Z.ltb Z.compare orb]. rewrite (times_1 c). apply from_ok; [exact HQ|exact RJ]. }
  assert (M : 0 <= m). { unfold m. destruct ((n <? 0) || (n >=? cp_n cp)) eqn:T; [apply Z.mod_pos_bound; lia|lia]. }
  apply from_ok; [apply times_pt; [exact E|exact HQ]|]. destruct m as [|k|k]; [left; split; [reflexivity|split; reflexivity]| |lia]. apply jmul_pos_ok; assumption.
Qed.
End Jacobian.
