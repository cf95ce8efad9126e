(** * P_Group2: when signatures verify on secp256k1 (C78) *)
From Coq Require Import ZArith Znumtheory Lia Bool List.
From Verif Require Import M_Py M_Float M_ECCurve L_Float L_Field S_EC S_Group L_EC L_EC2 L_EC3 L_Prime L_Prime2 L_Mul L_Mul2 L_Fp2 L_Mult L_Chain L_Order L_Wrong P_EC P_Field P_Mul P_Group.
Import ListNotations.
Open Scope Z_scope.

Lemma effect_acts k M P c : acts k M -> elliptic c -> point_of c P -> ec_mul c P (AInt k) = Ok (multiple (ec_add c) M P).
Proof. intros [_ H]. apply H. Qed.
Lemma acts_exists k c P Q : ec_mul c P (AInt k) = Ok Q -> exists M, acts k M.
Proof. intros H. destruct (mul_effect k) as [O|(M & M0 & X)]; [rewrite O in H; discriminate|]. exists M. split; assumption. Qed.
Lemma acts_below u : 0 <= u < n256k1 -> exists M, acts u M.
Proof.
  intros U. destruct (ec_mul_ok secp256k1 (0, 0) u) as [Q H]; [|exact (acts_exists _ _ _ _ H)]. assert (n256k1 <= 2 ^ 1024) by (vm_compute; discriminate). lia.
Qed.
Lemma seven_nonsquare : (modpow 7 ((c_p secp256k1 - 1) / 2) (c_p secp256k1) =? 1) = false.
Proof. vm_cast_no_check (eq_refl false). Qed.
(** no point of secp256k1 has abscissa 0 *)
Lemma k1_x_nonzero y : ~ equation (c_p secp256k1) (c_a secp256k1) (c_b secp256k1) 0 y.
Proof.
  intros E. unfold equation in E. rewrite same_cong in E. replace (0 * 0 * 0 + c_a secp256k1 * 0 + c_b secp256k1) with 7 in E by reflexivity. pose proof seven_nonsquare as X. apply Z.eqb_neq in X. apply X. clear X.
  pose proof prime_p256k1 as Hp. set (p := c_p secp256k1) in *. assert (P1 : 1 < p) by reflexivity. assert (H2 : (p - 1) = 2 * ((p - 1) / 2)) by (vm_compute; reflexivity).
  assert (H0 : 0 <= (p - 1) / 2) by (vm_compute; discriminate). set (h := (p - 1) / 2) in *. rewrite modpow_spec by lia. rewrite <- (Z.mod_1_l p P1). apply cong_iff; [lia|].
  rewrite <- (cong_pow p _ _ h E). rewrite <- Z.pow_2_r, <- Z.pow_mul_r, <- H2 by lia. apply fermat_cong; [exact Hp|]. intros [k Y].
  assert (D : cong p 7 0). { rewrite <- E. apply cong_0. exists (k * y). rewrite Y at 1. ring. }
  apply cong_0 in D. apply Z.divide_pos_le in D; [|lia]. assert (7 < p) by reflexivity. lia.
Qed.
Lemma same_abscissa P Q : point_of secp256k1 P -> point_of secp256k1 Q -> fst P = fst Q <-> P = Q \/ ec_add secp256k1 P Q = (0, 0).
Proof.
  destruct C85_named as (_ & E & _). pose proof E as (Hp & H2 & _). intros HP HQ.
  assert (Inv : forall x y, point_of secp256k1 (x, y) -> (x, y) <> (0, 0) -> point_of secp256k1 (x, c_p secp256k1 - y) /\ ec_add secp256k1 (x, y) (x, c_p secp256k1 - y) = (0, 0)).
  { intros x y [[CX CY] Eq] N. cbn [fst snd] in CX, CY. destruct Eq as [Eq|Eq]; [tauto|]. cbn [fst snd] in Eq. pose proof (k1_y_nonzero _ _ Eq) as Y. split.
    - split; [split; cbn [fst snd]; lia|right]. cbn [fst snd]. unfold equation, same in *. destruct Eq as [k Eq]. exists (k + c_p secp256k1 - 2 * y). lia.
    - apply (proj1 (C65_opposite secp256k1 (x, y) Hp H2 ltac:(split; cbn [fst snd]; lia) N)). }
  destruct P as [x1 y1], Q as [x2 y2]. cbn [fst]. split.
  - intros <-. destruct HP as [CP [EP|EP]].
    + assert (x1 = 0 /\ y1 = 0) as [-> ->] by (split; congruence). destruct HQ as [_ [EQ|EQ]]; [left; congruence|]. cbn [fst snd] in EQ. exfalso. exact (k1_x_nonzero _ EQ).
    + pose proof HQ as [CQ [EQ|EQ]]; [assert (x1 = 0) as -> by congruence; cbn [fst snd] in EP; exfalso; exact (k1_x_nonzero _ EP)|].
      assert (N : (x1, y1) <> (0, 0)) by (intros X; assert (x1 = 0) as -> by congruence; cbn [fst snd] in EP; exact (k1_x_nonzero _ EP)).
      destruct (Inv x1 y1 (conj CP (or_intror EP)) N) as [_ I]. destruct (same_x _ _ _ (x1, y1) (x1, y2) Hp EP EQ (cong_refl _ _)) as [S|S]; cbn [snd] in S.
      * left. apply (canon_eq (c_p secp256k1)); try assumption. reflexivity.
      * right. assert (y2 = c_p secp256k1 - y1) as ->; [|exact I]. cbn [fst snd] in EP. pose proof (k1_y_nonzero _ _ EP) as Y. destruct CP as [_ CP], CQ as [_ CQ]. cbn [snd] in CP, CQ.
        apply (cong_small (c_p secp256k1)); [exact CQ|lia|]. destruct S as [k S]. exists (k - 1). lia.
  - intros [X|X]; [congruence|]. destruct (Z.eq_dec x1 0) as [->|N1].
    + assert (y1 = 0) as ->. { destruct HP as [_ [EP|EP]]; [congruence|]. cbn [fst snd] in EP. exfalso. exact (k1_x_nonzero _ EP). } rewrite (proj1 (C65_neutral _ _)) in X. congruence.
    + destruct (Inv x1 y1 HP ltac:(congruence)) as [HN I]. assert (Y : (x2, y2) = (x1, c_p secp256k1 - y1)); [|congruence].
      apply (cancel _ E _ _ (x1, y1)); try assumption. rewrite (comm _ E (x2, y2)), (comm _ E (x1, c_p secp256k1 - y1)) by assumption. congruence.
Qed.
Lemma same_abscissa_multiple j k : 0 <= j -> 0 <= k -> fst (multiple (ec_add secp256k1) j G256k1) = fst (multiple (ec_add secp256k1) k G256k1) <-> (n256k1 | j - k) \/ (n256k1 | j + k).
Proof.
  destruct C85_named as (_ & E & _ & HG & _). intros J K. rewrite same_abscissa by (apply (times_pt _ E), HG). rewrite <- (times_add _ E) by assumption.
  pose proof (proj2 (C87_order _ _ _ (or_intror (conj eq_refl (conj eq_refl eq_refl))))) as O. rewrite (O j k J K). apply or_iff_compat_l. change (0, 0) with (multiple (ec_add secp256k1) 0 G256k1).
  rewrite (O (j + k) 0) by lia. rewrite Z.sub_0_r. reflexivity.
Qed.
Lemma fdiv_spec n a b : prime n -> 0 < b < n -> 0 <= fdiv n a b < n /\ same n (fdiv n a b * b) a.
Proof.
  intros Hn B. split; [apply Z.mod_pos_bound; lia|]. apply same_cong. apply fdiv_mul; [exact Hn|lia|]. intros D. apply Z.divide_pos_le in D; lia.
Qed.
(** A signature (r, s) of m made with the private key x and the secret k, checked with the public
    key of x: with u1 = m/s and u2 = r/s, and M(.) the multiplier by which a scalar acts, the
    check passes exactly if M(u1) + M(u2) M(x) is M(k) or -M(k) modulo the order. *)
Theorem C78_exact : forall m x k r s Y, calcpub ECDSA_secp256k1 (AInt x) = Ok Y -> ecdsa_sign ECDSA_secp256k1 (AInt m) (AInt x) (AInt k) = Ok (r, s) -> s <> 0 ->
  exists u1 u2 Mx Mk M1 M2 b, 0 <= u1 < n256k1 /\ 0 <= u2 < n256k1 /\ same n256k1 (u1 * s) m /\ same n256k1 (u2 * s) r /\
    acts x Mx /\ acts k Mk /\ acts u1 M1 /\ acts u2 M2 /\
    ecdsa_verify ECDSA_secp256k1 (AInt m) Y (AInt r) (AInt s) = Ok b /\
    (b = true <-> (n256k1 | M1 + M2 * Mx - Mk) \/ (n256k1 | M1 + M2 * Mx + Mk)).
Proof.
  destruct C85_named as (_ & E & _ & HG & _). pose proof prime_n256k1 as Hn. intros m x k r s Y HY HS NS.
  unfold calcpub in HY. cbn [integer rbind] in HY. change (ec_mul (e_curve ECDSA_secp256k1) (e_G ECDSA_secp256k1) (AVal x)) with (ec_mul secp256k1 G256k1 (AInt x)) in HY.
  unfold ecdsa_sign in HS. cbn [integer rbind e_curve e_G e_n ECDSA_secp256k1] in HS. change (ec_mul secp256k1 G256k1 (AVal k)) with (ec_mul secp256k1 G256k1 (AInt k)) in HS.
  destruct (ec_mul secp256k1 G256k1 (AInt k)) as [R|e] eqn:HR; [|discriminate]. cbn [rbind] in HS.
  assert (Er : r = fst R) by congruence. assert (Es : s = fdiv n256k1 (fadd n256k1 m (fmul n256k1 x (fst R))) k) by congruence. clear HS.
  assert (S0 : 0 < s < n256k1). { assert (0 <= s < n256k1) by (rewrite Es; apply Z.mod_pos_bound; reflexivity). lia. }
  destruct (acts_exists _ _ _ _ HY) as [Mx AX]. destruct (acts_exists _ _ _ _ HR) as [Mk AK].
  destruct (fdiv_spec n256k1 m s Hn S0) as [B1 D1]. destruct (fdiv_spec n256k1 r s Hn S0) as [B2 D2].
  destruct (acts_below _ B1) as [M1 A1]. destruct (acts_below _ B2) as [M2 A2].
  assert (EY : Y = multiple (ec_add secp256k1) Mx G256k1) by (pose proof (effect_acts _ _ _ _ AX E HG); congruence).
  assert (ER : R = multiple (ec_add secp256k1) Mk G256k1) by (pose proof (effect_acts _ _ _ _ AK E HG); congruence).
  assert (PY : point_of secp256k1 Y) by (rewrite EY; apply (times_pt _ E), HG). assert (PR : point_of secp256k1 R) by (rewrite ER; apply (times_pt _ E), HG).
  exists (fdiv n256k1 m s), (fdiv n256k1 r s), Mx, Mk, M1, M2, (feq (c_p secp256k1) (fst (multiple (ec_add secp256k1) (M1 + M2 * Mx) G256k1)) r).
  do 8 (split; [assumption|]). split.
  - unfold ecdsa_verify. cbn [integer rbind e_curve e_G e_n ECDSA_secp256k1].
    change (ec_mul secp256k1 G256k1 (AVal (fdiv n256k1 m s))) with (ec_mul secp256k1 G256k1 (AInt (fdiv n256k1 m s))). change (ec_mul secp256k1 Y (AVal (fdiv n256k1 r s))) with (ec_mul secp256k1 Y (AInt (fdiv n256k1 r s))).
    rewrite (effect_acts _ _ _ _ A1 E HG), (effect_acts _ _ _ _ A2 E PY). cbn [rbind]. rewrite EY. rewrite <- (times_mul _ E), <- (times_add _ E) by (try assumption; try (apply Z.mul_nonneg_nonneg); (apply A1 || apply A2 || apply AX)). reflexivity.
  - rewrite <- same_abscissa_multiple by (apply AK || (apply Z.add_nonneg_nonneg; [apply A1|apply Z.mul_nonneg_nonneg; [apply A2|apply AX]])). rewrite <- ER, <- Er.
    pose proof (times_pt _ E (M1 + M2 * Mx) G256k1 HG) as [[C _] _]. destruct PR as [[CR _] _]. rewrite <- Er in CR.
    rewrite feq_cong by reflexivity. split; [intros X; apply (cong_small (c_p secp256k1)); assumption|intros X; rewrite X; reflexivity].
Qed.
Print Assumptions C78_exact.
Definition effect (k : Z) : Z := match int_truediv k 2 with Ok f => number (negb (k mod 2 =? 0) :: float_bits 2200 f) | Raise _ => -1 end.
Lemma effect_ok k : k <> 0 -> effect k <> -1 -> acts k (effect k).
Proof.
  intros N X. unfold effect in *. destruct (int_truediv k 2) as [f|] eqn:F; [|congruence]. split; [apply number_nonneg|]. intros c P E HP. rewrite <- C86_digits by assumption.
  unfold ec_mul. cbn [integer rbind]. replace (k =? 0) with false by lia. rewrite F. cbn [rbind]. rewrite mul_loop_bits. unfold Infinity. cbn [add_bits]. destruct (k mod 2 =? 0); reflexivity.
Qed.
Lemma acts_unique u M M' : acts u M -> acts u M' -> (n256k1 | M - M').
Proof.
  destruct C85_named as (_ & E & _ & HG & _). intros [A H] [A' H']. specialize (H _ _ E HG). specialize (H' _ _ E HG).
  apply (proj2 (C87_order _ _ _ (or_intror (conj eq_refl (conj eq_refl eq_refl))))); [exact A|exact A'|congruence].
Qed.
(** M(1), M(2), M(3) modulo the order *)
Definition e1 := effect 1 mod n256k1. Definition e2 := effect 2 mod n256k1. Definition e3 := effect 3 mod n256k1.
Lemma effects_known : (effect 1 =? -1) = false /\ (effect 2 =? -1) = false /\ (effect 3 =? -1) = false.
Proof. vm_cast_no_check (conj (eq_refl false) (conj (eq_refl false) (eq_refl false))). Qed.
Definition hit (v : Z) : bool := v mod n256k1 =? 0.
Lemma no_hit : hit e2 || hit e3 || hit (e2 - e3) || hit (e2 + e3) || hit (e1 + e1 * e1 - e2) || hit (e1 + e1 * e1 + e2) || hit (e2 + e1 * e1 - e3) || hit (e2 + e1 * e1 + e3) = false.
Proof. vm_cast_no_check (eq_refl false). Qed.
Lemma hit_spec v : hit v = false -> forall w, cong n256k1 w v -> ~ (n256k1 | w).
Proof.
  unfold hit. rewrite Z.eqb_neq. intros H w C D. apply H. apply Z.mod_divide; [discriminate|]. apply cong_0. rewrite <- C. apply cong_0, D.
Qed.
Lemma hits_spec a1 a2 a3 : hit a2 || hit a3 || hit (a2 - a3) || hit (a2 + a3) || hit (a1 + a1 * a1 - a2) || hit (a1 + a1 * a1 + a2) || hit (a2 + a1 * a1 - a3) || hit (a2 + a1 * a1 + a3) = false ->
  forall m1 m2 m3, cong n256k1 m1 a1 -> cong n256k1 m2 a2 -> cong n256k1 m3 a3 ->
  ~ (n256k1 | m2) /\ ~ (n256k1 | m3) /\ ~ ((n256k1 | m2 - m3) \/ (n256k1 | m2 + m3)) /\
  ~ ((n256k1 | m1 + m1 * m1 - m2) \/ (n256k1 | m1 + m1 * m1 + m2)) /\ ~ ((n256k1 | m2 + m1 * m1 - m3) \/ (n256k1 | m2 + m1 * m1 + m3)).
Proof.
  intros H m1 m2 m3 C1 C2 C3. repeat (apply orb_false_iff in H; let H' := fresh "N" in destruct H as [H H']).
  split; [apply (hit_spec _ H); exact C2|]. split; [apply (hit_spec _ N5); exact C3|].
  split; [intros [D|D]; revert D; [apply (hit_spec _ N4)|apply (hit_spec _ N3)]; rewrite C2, C3; reflexivity|].
  split; intros [D|D]; revert D; [apply (hit_spec _ N2)|apply (hit_spec _ N1)|apply (hit_spec _ N0)|apply (hit_spec _ N)]; rewrite C1, C2, ?C3; reflexivity.
Qed.
Lemma cancel_mod u v s : 0 <= u < n256k1 -> 0 <= v < n256k1 -> ~ (n256k1 | s) -> cong n256k1 (u * s) (v * s) -> u = v.
Proof. intros U V S C. apply (cong_small n256k1); try assumption. apply (cong_cancel _ _ _ s prime_n256k1); assumption. Qed.
Definition rejected : Prop := exists m x k r s Y, 0 <= m /\ 0 < x < n256k1 /\ 0 < k < n256k1 /\ 0 < r < c_p secp256k1 /\ 0 < s < n256k1 /\
  calcpub ECDSA_secp256k1 (AInt x) = Ok Y /\ ecdsa_sign ECDSA_secp256k1 (AInt m) (AInt x) (AInt k) = Ok (r, s) /\
  ecdsa_verify ECDSA_secp256k1 (AInt m) Y (AInt r) (AInt s) = Ok false.
Lemma n_facts : 1000 < n256k1 /\ n256k1 < c_p secp256k1 < 2 * n256k1.
Proof. split; [reflexivity|split; reflexivity]. Qed.
Lemma k1_affine_x P : point_of secp256k1 P -> P <> (0, 0) -> 0 < fst P < c_p secp256k1.
Proof.
  intros [[C _] Eq] N. destruct (Z.eq_dec (fst P) 0) as [X|]; [|lia]. exfalso. destruct Eq as [Eq|Eq]; [tauto|]. rewrite X in Eq. exact (k1_x_nonzero _ Eq).
Qed.
Lemma reject_case k m1 mu mk : 2 <= k <= 3 -> acts 1 m1 -> acts (k - 1) mu -> acts k mk -> ~ (n256k1 | mk) ->
  ~ (n256k1 | fst (multiple (ec_add secp256k1) mk G256k1)) -> ~ ((n256k1 | mu + m1 * m1 - mk) \/ (n256k1 | mu + m1 * m1 + mk)) -> rejected.
Proof.
  destruct C85_named as (_ & E & _ & HG & _). pose proof prime_n256k1 as Hn. destruct n_facts as (N0 & _). intros K A1 AU AK NK NR NH.
  pose proof (proj2 (C87_order _ _ _ (or_intror (conj eq_refl (conj eq_refl eq_refl))))) as O.
  set (R := multiple (ec_add secp256k1) mk G256k1) in *. assert (PR : point_of secp256k1 R) by (apply (times_pt _ E), HG).
  assert (R0 : R <> (0, 0)). { intros X. apply NK. replace mk with (mk - 0) by lia. apply O; [apply AK|lia|exact X]. }
  pose proof (k1_affine_x R PR R0) as RB. set (r := fst R) in *.
  assert (HR : ec_mul secp256k1 G256k1 (AInt k) = Ok R) by (apply (proj2 AK); assumption).
  assert (HY : calcpub ECDSA_secp256k1 (AInt 1) = Ok (multiple (ec_add secp256k1) m1 G256k1)) by (exact (proj2 A1 _ _ E HG)).
  set (m := (k - 1) * r). set (s := fdiv n256k1 (fadd n256k1 m (fmul n256k1 1 r)) k).
  assert (HS : ecdsa_sign ECDSA_secp256k1 (AInt m) (AInt 1) (AInt k) = Ok (r, s)).
  { unfold ecdsa_sign. cbn [integer rbind e_curve e_G e_n ECDSA_secp256k1]. change (ec_mul secp256k1 G256k1 (AVal k)) with (ec_mul secp256k1 G256k1 (AInt k)). rewrite HR. reflexivity. }
  assert (SK : cong n256k1 s r).
  { destruct (fdiv_spec n256k1 (fadd n256k1 m (fmul n256k1 1 r)) k Hn ltac:(lia)) as [_ D]. fold s in D. rewrite same_cong in D.
    apply (cong_cancel _ _ _ k Hn); [intros X; apply Z.divide_pos_le in X; lia|]. rewrite D. rewrite fadd_cong, fmul_cong by lia. apply cong_eq. unfold m. ring. }
  assert (S0 : 0 <= s < n256k1) by (apply Z.mod_pos_bound; lia).
  assert (SN : ~ (n256k1 | s)). { intros X. apply NR. apply cong_0. rewrite <- SK. apply cong_0, X. }
  assert (SZ : s <> 0) by (intros X; apply SN; rewrite X; apply Z.divide_0_r).
  destruct (C78_exact m 1 k r s _ HY HS SZ) as (u1 & u2 & Mx & Mk & M1 & M2 & b & B1 & B2 & D1 & D2 & AX' & AK' & A1' & A2' & V & Iff).
  rewrite same_cong in D1, D2. assert (u1 = k - 1) as ->. { apply (cancel_mod _ _ s); try assumption; [lia|]. rewrite D1, SK. reflexivity. }
  assert (u2 = 1) as ->. { apply (cancel_mod _ _ s); try assumption; [lia|]. rewrite D2, SK. apply cong_eq. ring. }
  pose proof (acts_unique _ _ _ AX' A1) as X1. pose proof (acts_unique _ _ _ AK' AK) as X2. pose proof (acts_unique _ _ _ A1' AU) as X3. pose proof (acts_unique _ _ _ A2' A1) as X4.
  assert (b = false) as ->.
  { apply not_true_is_false. intros T. apply NH. apply Iff in T. fold (cong n256k1 Mx m1) in X1. fold (cong n256k1 Mk mk) in X2. fold (cong n256k1 M1 mu) in X3. fold (cong n256k1 M2 m1) in X4.
    destruct T as [T|T]; [left|right]; apply cong_0; apply cong_0 in T; rewrite <- T; rewrite X1, X2, X3, X4; reflexivity. }
  exists m, 1, k, r, s. eexists. split; [unfold m; apply Z.mul_nonneg_nonneg; lia|]. split; [lia|]. split; [lia|]. split; [exact RB|]. split; [lia|]. split; [exact HY|]. split; [exact HS|exact V].
Qed.
Lemma rejected_one m1 m2 m3 : acts 1 m1 -> acts 2 m2 -> acts 3 m3 ->
  ~ (n256k1 | m2) /\ ~ (n256k1 | m3) /\ ~ ((n256k1 | m2 - m3) \/ (n256k1 | m2 + m3)) /\
  ~ ((n256k1 | m1 + m1 * m1 - m2) \/ (n256k1 | m1 + m1 * m1 + m2)) /\ ~ ((n256k1 | m2 + m1 * m1 - m3) \/ (n256k1 | m2 + m1 * m1 + m3)) -> rejected.
Proof.
  destruct C85_named as (_ & E & _ & HG & _). destruct n_facts as (N0 & NP). intros A1 A2 A3 (H2 & H3 & H23 & HA & HB).
  destruct (Zdivide_dec n256k1 (fst (multiple (ec_add secp256k1) m2 G256k1))) as [D2|D2]; [|apply (reject_case 2 m1 m1 m2); try assumption; lia].
  destruct (Zdivide_dec n256k1 (fst (multiple (ec_add secp256k1) m3 G256k1))) as [D3|D3]; [|apply (reject_case 3 m1 m2 m3); try assumption; lia].
  exfalso. apply H23. apply (same_abscissa_multiple m2 m3); [apply A2|apply A3|].
  pose proof (proj2 (C87_order _ _ _ (or_intror (conj eq_refl (conj eq_refl eq_refl))))) as O.
  assert (G : forall M u, acts u M -> ~ (n256k1 | M) -> (n256k1 | fst (multiple (ec_add secp256k1) M G256k1)) -> fst (multiple (ec_add secp256k1) M G256k1) = n256k1).
  { intros M u A ND D. pose proof (times_pt _ E M G256k1 HG) as PM. assert (M0 : multiple (ec_add secp256k1) M G256k1 <> (0, 0)). { intros X. apply ND. replace M with (M - 0) by lia. apply O; [apply A|lia|exact X]. }
    pose proof (k1_affine_x _ PM M0) as B. revert B D. generalize (fst (multiple (ec_add secp256k1) M G256k1)). intros x B [q D].
    assert (q = 1) by (clear - B D N0 NP; assert (0 < q) by (apply Z.nle_gt; intros ?; assert (q * n256k1 <= 0) by (apply Z.mul_nonpos_nonneg; lia); lia); assert (q < 2) by (apply Z.nle_gt; intros ?; assert (2 * n256k1 <= q * n256k1) by (apply Z.mul_le_mono_nonneg_r; lia); lia); lia). lia. }
  rewrite (G _ _ A2 H2 D2), (G _ _ A3 H3 D3). reflexivity.
Qed.
(** so, on the real curve, some signature made with private key 1 is rejected with the public key
    of 1 *)
Theorem C78_rejected_secp256k1 : exists m x k r s Y, 0 <= m /\ 0 < x < n256k1 /\ 0 < k < n256k1 /\ 0 < r < c_p secp256k1 /\ 0 < s < n256k1 /\
  calcpub ECDSA_secp256k1 (AInt x) = Ok Y /\ ecdsa_sign ECDSA_secp256k1 (AInt m) (AInt x) (AInt k) = Ok (r, s) /\
  ecdsa_verify ECDSA_secp256k1 (AInt m) Y (AInt r) (AInt s) = Ok false.
Proof.
  destruct effects_known as (K1 & K2 & K3). destruct n_facts as (N0 & _). apply Z.eqb_neq in K1, K2, K3. assert (P : 0 < n256k1) by (apply Z.lt_trans with 1000; [reflexivity|exact N0]).
  assert (I1 : 1 <> 0) by discriminate. assert (I2 : 2 <> 0) by discriminate. assert (I3 : 3 <> 0) by discriminate.
  exact (rejected_one _ _ _ (effect_ok 1 I1 K1) (effect_ok 2 I2 K2) (effect_ok 3 I3 K3)
    (hits_spec e1 e2 e3 no_hit _ _ _ (cong_sym _ _ _ (cong_mod _ _ P)) (cong_sym _ _ _ (cong_mod _ _ P)) (cong_sym _ _ _ (cong_mod _ _ P)))).
Qed.
Print Assumptions C78_rejected_secp256k1.

(** ** C77: what key recovery computes when the group order is a number: the point Q such that
    Q + G*(m/r) = R*(s/r), where R is the point with abscissa r and the given parity *)
Theorem C77_recover : forall E n message rnum snum m r s flag R A B u v, e_n E = OInt n -> prime n -> elliptic (e_curve E) -> point_of (e_curve E) (e_G E) ->
  denotes_number message m -> denotes_number rnum r -> denotes_number snum s -> 0 < r < n ->
  decompress (e_curve E) r flag = Ok R -> point_of (e_curve E) R ->
  0 <= u < n -> same n (u * r) s -> 0 <= v < n -> same n (v * r) m ->
  ec_mul (e_curve E) R (AInt u) = Ok A -> ec_mul (e_curve E) (e_G E) (AInt v) = Ok B -> snd B <> 0 ->
  exists Q, findpk E message rnum snum flag = Ok Q /\ ec_add (e_curve E) Q B = A.
Proof.
  intros E n message rnum snum m r s flag R A B u v En Hn El HG Dm Dr Ds Hr HR PR Hu Cu Hv Cv HA HB NB.
  apply (proj1 (C68_arguments _)) in Dm, Dr, Ds. unfold findpk. rewrite Dm, Dr, Ds. cbn [rbind]. rewrite HR. cbn [rbind]. rewrite En.
  assert (G : forall w z, 0 <= w < n -> same n (w * r) z -> fdiv n z r = w).
  { intros w z W C. destruct (fdiv_spec n z r Hn Hr) as [F1 F2]. apply (cong_small n); try assumption. apply (cong_cancel _ _ _ r Hn); [intros D; apply Z.divide_pos_le in D; lia|].
    rewrite same_cong in C, F2. rewrite F2, C. reflexivity. }
  rewrite (G u s Hu Cu), (G v m Hv Cv). change (ec_mul (e_curve E) R (AVal u)) with (ec_mul (e_curve E) R (AInt u)). change (ec_mul (e_curve E) (e_G E) (AVal v)) with (ec_mul (e_curve E) (e_G E) (AInt v)).
  rewrite HA, HB. cbn [rbind]. eexists. split; [reflexivity|].
  assert (PA : point_of (e_curve E) A) by (apply (C86_additive (e_curve E) R R (AInt u) A A El PR PR HA HA)).
  assert (PB : point_of (e_curve E) B) by (apply (C86_additive (e_curve E) (e_G E) (e_G E) (AInt v) B B El HG HG HB HB)).
  apply (C85_subtract (e_curve E) A B El PA PB NB).
Qed.
Print Assumptions C77_recover.
Example C77_recover_example : let E := mkECDSA (mkCurve 7 1 6) (1, 1) (OInt 11) in
  prime 11 /\ elliptic (e_curve E) /\ point_of (e_curve E) (e_G E) /\ exists R A B, decompress (e_curve E) 2 0 = Ok R /\ point_of (e_curve E) R /\ same 11 (8 * 2) 5 /\ same 11 (7 * 2) 3 /\
  ec_mul (e_curve E) R (AInt 8) = Ok A /\ ec_mul (e_curve E) (e_G E) (AInt 7) = Ok B /\ snd B <> 0.
Proof.
  assert (N : forall z, (z mod 7 =? 0) = false -> ~ same 7 z 0).
  { intros z M S. apply Z.eqb_neq in M. apply M. destruct S as [k S]. rewrite Z.sub_0_r in S. rewrite S. apply Z.mod_mul. lia. }
  cbn zeta. split; [apply trial_prime; [lia|vm_compute; reflexivity]|]. split; [split; [exact pr_7|split; [reflexivity|split; apply N; reflexivity]]|].
  split; [split; [split; cbn; lia|right; apply L_Fermat.divide_mod_eq; reflexivity]|].
  destruct (decompress (e_curve (mkECDSA (mkCurve 7 1 6) (1, 1) (OInt 11))) 2 0) as [R|] eqn:HR; [|vm_compute in HR; discriminate]. 
  destruct (ec_mul (e_curve (mkECDSA (mkCurve 7 1 6) (1, 1) (OInt 11))) R (AInt 8)) as [A|] eqn:HA; vm_compute in HR; injection HR as <-; [|vm_compute in HA; discriminate].
  destruct (ec_mul (e_curve (mkECDSA (mkCurve 7 1 6) (1, 1) (OInt 11))) (e_G (mkECDSA (mkCurve 7 1 6) (1, 1) (OInt 11))) (AInt 7)) as [B|] eqn:HB; vm_compute in HB; [|discriminate]. injection HB as <-.
  do 3 eexists. split; [reflexivity|]. split; [split; [split; cbn; lia|right; apply L_Fermat.divide_mod_eq; vm_compute; reflexivity]|]. split; [exists 1; reflexivity|]. split; [exists 1; reflexivity|]. split; [exact HA|]. split; [reflexivity|]. discriminate.
Qed.
