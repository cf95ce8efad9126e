(** * P_Div: dividing a point by a number (C89) *)
From Coq Require Import ZArith Znumtheory Lia List Bool.
From Verif Require Import M_Py M_Float M_ECCurve L_Mul L_Field S_EC S_Group L_Fp2 L_Mult L_Prime2 L_Div L_Div2 P_Mul P_Group.
Import ListNotations.
Open Scope Z_scope.

(** zero, field values and text are refused *)
Theorem C89_refused : forall c P, ec_div c P (AInt 0) = Raise ZeroDivisionError /\ (forall z, ec_div c P (AVal z) = Raise TypeError) /\ (forall t, ec_div c P (AHex t) = Raise TypeError).
Proof. intros c P. repeat split; reflexivity. Qed.
Print Assumptions C89_refused.

Lemma number_ones N : number (repeat true N) = 2 ^ Z.of_nat N - 1.
Proof. induction N as [|N IH]; [reflexivity|]. cbn [repeat number]. rewrite IH, Nat2Z.inj_succ, Z.pow_succ_r by lia. ring. Qed.
(** dividing by a nonzero integer of any size multiplies by 2^N - 1 for some N <= 1076 that
    depends on the divisor only; for |a| = 2^j, N is 1075 - j, or 0 if that is negative *)
Theorem C89_divide : forall a, a <> 0 -> exists N, 0 <= N <= 1076 /\ (forall j, 0 <= j -> Z.abs a = 2 ^ j -> N = Z.max 0 (1075 - j)) /\
  (forall j, 0 <= j <= 1000 -> 2 ^ j <= Z.abs a < 2 ^ (j + 1) -> 1074 - j <= N <= 1075 - j) /\
  forall c P, elliptic c -> point_of c P -> ec_div c P (AInt a) = Ok (multiple (ec_add c) (2 ^ N - 1) P).
Proof.
  intros a A0. destruct (quotient_bits a A0) as (f & N & F & B & N1 & N2 & N3). exists (Z.of_nat N). split; [lia|]. split; [exact N2|]. split; [exact N3|]. intros c P E HP.
  unfold ec_div. rewrite F. cbn [rbind]. rewrite mul_loop_bits, B. unfold Infinity. rewrite (C86_digits c _ P E HP), number_ones. reflexivity.
Qed.
Print Assumptions C89_divide.
(** in particular dividing by 1 is multiplying by 1, that is by 2^1075 - 1 *)
Theorem C89_one : forall c P, ec_div c P (AInt 1) = ec_mul c P (AInt 1) /\ (elliptic c -> point_of c P -> ec_div c P (AInt 1) = Ok (multiple (ec_add c) (2 ^ 1075 - 1) P)).
Proof.
  intros c P. split.
  - assert (H1 : halvings 1 (Z.abs 1)) by (constructor; [discriminate|constructor]). rewrite (proj2 (C66_odd c P 1 1 1 eq_refl eq_refl eq_refl eq_refl H1 H1)).
    destruct (quotient_bits 1 ltac:(lia)) as (f & N & F & B & _ & N2 & _). specialize (N2 0 ltac:(lia) eq_refl). unfold ec_div. rewrite F. cbn [rbind]. rewrite mul_loop_bits, B. replace N with (1074 + 1)%nat by lia. reflexivity.
  - destruct (C89_divide 1 ltac:(lia)) as (N & _ & N2 & _ & H). rewrite (N2 0 ltac:(lia) eq_refl) in H. apply H.
Qed.
Print Assumptions C89_one.

(** The quotient of G by a should be the point Q with a * Q = G.  Of the n - 1 divisors it is that
    for exactly two on secp256r1 and exactly one on secp256k1. *)
Lemma divisor_iff c G n a N : elliptic c -> point_of c G -> 0 <= N -> 0 < a ->
  (forall j k, 0 <= j -> 0 <= k -> (multiple (ec_add c) j G = multiple (ec_add c) k G <-> (n | j - k))) ->
  multiple (ec_add c) a (multiple (ec_add c) (2 ^ N - 1) G) = G <-> cong n (a * (2 ^ N - 1)) 1.
Proof.
  intros E HG N0 A O. assert (P : 0 < 2 ^ N) by (apply Z.pow_pos_nonneg; lia). rewrite <- (times_mul c E) by (try assumption; lia). rewrite <- (times_1 c G) at 2. rewrite O by (try apply Z.mul_nonneg_nonneg; lia). reflexivity.
Qed.
Lemma digits_known a N f : int_truediv 1 a = Ok f -> float_bits 2200 f = repeat true N -> digits a = Some N.
Proof. intros F B. unfold digits. rewrite F, B, repeat_length. reflexivity. Qed.
Lemma hits (c : curve) (G : point) (n : Z) (except l : list Z) : elliptic c -> point_of c G -> 1 < n < 2 ^ 256 -> length l = 257%nat -> check n except 819 (2 ^ 819 mod n) l = true ->
  (forall j k, 0 <= j -> 0 <= k -> (multiple (ec_add c) j G = multiple (ec_add c) k G <-> (n | j - k))) ->
  forall a, 0 < a < n -> exists N, digits a = Some N /\ ec_div c G (AInt a) = Ok (multiple (ec_add c) (2 ^ Z.of_nat N - 1) G) /\
    (multiple (ec_add c) a (multiple (ec_add c) (2 ^ Z.of_nat N - 1) G) = G -> In a except) /\
    (cong n (a * (2 ^ Z.of_nat N - 1)) 1 -> multiple (ec_add c) a (multiple (ec_add c) (2 ^ Z.of_nat N - 1) G) = G) /\ 
    (multiple (ec_add c) a (multiple (ec_add c) (2 ^ Z.of_nat N - 1) G) = G -> cong n (a * (2 ^ Z.of_nat N - 1)) 1).
Proof.
  intros E HG Hn Hl C O a A. destruct (quotient_bits a ltac:(lia)) as (f & N & F & B & _ & _ & N3). exists N. split; [exact (digits_known a N f F B)|]. split.
  { unfold ec_div. rewrite F. cbn [rbind]. rewrite mul_loop_bits, B. unfold Infinity. rewrite (C86_digits c _ G E HG), number_ones. reflexivity. }
  rewrite (divisor_iff c G n a (Z.of_nat N) E HG ltac:(lia) ltac:(lia) O). split; [|split; intros H; exact H]. intros H.
  apply (good_divisor n except l a (Z.of_nat N) Hn Hl C A); [|exact H]. intros j J L. apply N3; [exact J|]. rewrite Z.abs_eq by lia. exact L.
Qed.
Definition inverse_at (n a N : Z) : bool := (a * (2 ^ N - 1)) mod n =? 1.
Lemma inverse_at_ok n a N : 1 < n -> inverse_at n a N = true <-> cong n (a * (2 ^ N - 1)) 1.
Proof. intros Hn. unfold inverse_at. rewrite Z.eqb_eq. rewrite <- (Z.mod_1_l n Hn) at 2. symmetry. apply cong_iff. lia. Qed.
Lemma r1_inverses : inverse_at n256r1 0x95276d983672707fcee754fd8663895a607bd60223d33ceab22ebef8f3e7ba22 820 = false /\
  inverse_at n256r1 0xa777dca77e9ade6f424982ee3c0eb5a3cf18782780f1bc887f146763ccce1544 820 = true /\
  inverse_at n256r1 0x5609fd079e6f83641e4b38047723af5a5f986297253352c86530267f72e06544 821 = true.
Proof. vm_compute. repeat split. Qed.
Lemma k1_inverses : inverse_at n256k1 0x9307bf43ebe7f66f90895a45f9b0a1152c4133e18ee990726a8f565a7121788a 820 = true.
Proof. vm_compute. reflexivity. Qed.
Theorem C89_right_secp256r1 : forall a, 0 < a < n256r1 -> exists Q, ec_div secp256r1 G256 (AInt a) = Ok Q /\
  (multiple (ec_add secp256r1) a Q = G256 <->
   a = 0xa777dca77e9ade6f424982ee3c0eb5a3cf18782780f1bc887f146763ccce1544 \/ a = 0x5609fd079e6f83641e4b38047723af5a5f986297253352c86530267f72e06544).
Proof.
  destruct C85_named as (E & _ & HG & _). pose proof (proj2 (C87_order _ _ _ (or_introl (conj eq_refl (conj eq_refl eq_refl))))) as O. pose proof digits_r1 as D. unfold except_r1 in D. cbn [map] in D.
  assert (Hn : 1 < n256r1 < 2 ^ 256) by (split; reflexivity). pose proof r1_inverses as (I1 & I2 & I3).
  assert (Df : forall x N, digits x = Some N -> forall M, digits x = Some M -> M = N) by (intros; congruence).
  set (a1 := 0x95276d983672707fcee754fd8663895a607bd60223d33ceab22ebef8f3e7ba22) in *. set (a2 := 0xa777dca77e9ade6f424982ee3c0eb5a3cf18782780f1bc887f146763ccce1544) in *. set (a3 := 0x5609fd079e6f83641e4b38047723af5a5f986297253352c86530267f72e06544) in *.
  assert (D1 : digits a1 = Some 820%nat) by congruence. assert (D2 : digits a2 = Some 820%nat) by congruence. assert (D3 : digits a3 = Some 821%nat) by congruence. clear D.
  intros a A. destruct (hits secp256r1 G256 n256r1 except_r1 inv_r1 E HG Hn eq_refl check_r1 O a A) as (N & DN & X & H1 & H2 & H3). eexists. split; [exact X|]. split.
  - intros H. specialize (H3 H). specialize (H1 H). destruct H1 as [H1|[H1|[H1|[]]]].
    + exfalso. assert (Ea : a = a1) by (symmetry; exact H1). rewrite Ea in H3, DN. rewrite (Df _ _ D1 _ DN) in H3. apply (inverse_at_ok _ _ _ (proj1 Hn)) in H3. change (Z.of_nat 820) with 820 in H3. exact (diff_false_true (eq_trans (eq_sym I1) H3)).
    + left. symmetry. exact H1.
    + right. symmetry. exact H1.
  - intros [-> | ->]; apply H2; apply (inverse_at_ok _ _ _ (proj1 Hn)).
    + rewrite (Df _ _ D2 _ DN). exact I2.
    + rewrite (Df _ _ D3 _ DN). exact I3.
Qed.
Print Assumptions C89_right_secp256r1.
Theorem C89_right_secp256k1 : forall a, 0 < a < n256k1 -> exists Q, ec_div secp256k1 G256k1 (AInt a) = Ok Q /\
  (multiple (ec_add secp256k1) a Q = G256k1 <-> a = 0x9307bf43ebe7f66f90895a45f9b0a1152c4133e18ee990726a8f565a7121788a).
Proof.
  destruct C85_named as (_ & E & _ & HG & _). pose proof (proj2 (C87_order _ _ _ (or_intror (conj eq_refl (conj eq_refl eq_refl))))) as O. pose proof digits_k1 as D. unfold except_k1 in D. cbn [map] in D.
  assert (Hn : 1 < n256k1 < 2 ^ 256) by (split; reflexivity). pose proof k1_inverses as I1.
  assert (Df : forall x N, digits x = Some N -> forall M, digits x = Some M -> M = N) by (intros; congruence).
  set (a1 := 0x9307bf43ebe7f66f90895a45f9b0a1152c4133e18ee990726a8f565a7121788a) in *. assert (D1 : digits a1 = Some 820%nat) by congruence. clear D.
  intros a A. destruct (hits secp256k1 G256k1 n256k1 except_k1 inv_k1 E HG Hn eq_refl check_k1 O a A) as (N & DN & X & H1 & H2 & H3). eexists. split; [exact X|]. split.
  - intros H. specialize (H1 H). destruct H1 as [H1|[]]. symmetry. exact H1.
  - intros ->; apply H2; apply (inverse_at_ok _ _ _ (proj1 Hn)). rewrite (Df _ _ D1 _ DN). exact I1.
Qed.
Print Assumptions C89_right_secp256k1.
Example C89_example : elliptic (mkCurve 7 1 6) /\ point_of (mkCurve 7 1 6) (1, 1) /\ ec_div (mkCurve 7 1 6) (1, 1) (AInt 3) <> Ok (0, 0).
Proof.
  assert (N : forall z, (z mod 7 =? 0) = false -> ~ same 7 z 0).
  { intros z M S. apply Z.eqb_neq in M. apply M. destruct S as [k S]. rewrite Z.sub_0_r in S. rewrite S. apply Z.mod_mul. lia. }
  split; [split; [exact L_Prime.pr_7|split; [reflexivity|split; apply N; reflexivity]]|]. split; [split; [split; cbn; lia|right; apply L_Fermat.divide_mod_eq; reflexivity]|]. vm_compute. discriminate.
Qed.
