(** * P_Field: C63, C64, C68, C69, C70 (field arithmetic, modular square roots, key recovery) *)
From Coq Require Import ZArith Znumtheory Lia List Setoid.
From Verif Require Import M_Py M_ECCurve L_Bytes L_IO L_Fermat L_Prime L_Field L_EC L_FloatDiv L_Hex L_IO2 L_IO3 L_Crypto S_IO S_EC S_Group.
Import ListNotations.
Open Scope Z_scope.

(** ** C64 GCD satisfies Bezout and modinv inverts *)
Theorem C64_gcd : forall a b, exists g c d, GCD a b = Some (g, c, d) /\ a * c + b * d = g /\ Z.abs g = Z.gcd a b /\
  (a <> 0 -> Z.sgn g = Z.sgn a) /\ (a = 0 -> g = b).
Proof.
  intros a b. destruct (GCD_Some a b) as (g & c & d & E). exists g, c, d. split; [exact E|]. unfold GCD in E.
  destruct (GCD_fuel_spec _ _ _ _ _ _ E) as (B & Z0 & Z1). split; [exact B|].
  destruct (Z.eq_dec a 0) as [->|N].
  - specialize (Z0 eq_refl). rewrite Z0. split; [reflexivity|]. tauto.
  - specialize (Z1 N). rewrite Z1. assert (G : 0 < Z.gcd a b). { pose proof (Z.gcd_nonneg a b). assert (Z.gcd a b <> 0); [|lia]. intros X. apply Z.gcd_eq_0_l in X. tauto. }
    split; [|split; [|tauto]].
    + rewrite Z.abs_mul. destruct (Z.lt_trichotomy a 0) as [L|[L|L]]; [|lia|]; [rewrite Z.sgn_neg by lia|rewrite Z.sgn_pos by lia]; lia.
    + intros _. rewrite Z.sgn_mul. rewrite (Z.sgn_pos (Z.gcd a b)) by lia. rewrite Z.mul_1_r. apply Z.sgn_sgn.
Qed.
Print Assumptions C64_gcd.
Theorem C64_modinv : forall x m, 0 < x -> Z.gcd x m = 1 -> same m (x * modinv x m) 1.
Proof.
  intros x m X G. destruct (modinv_bezout x m ltac:(lia)) as (d & B). rewrite G, Z.sgn_pos in B by lia. exists (- d). lia.
Qed.
Print Assumptions C64_modinv.
Theorem C64_modinv_negative : forall x m, x < 0 -> Z.gcd x m = 1 -> same m (x * modinv x m) (-1).
Proof.
  intros x m X G. destruct (modinv_bezout x m ltac:(lia)) as (d & B). rewrite G, Z.sgn_neg in B by lia. exists (- d). lia.
Qed.
Print Assumptions C64_modinv_negative.
Example C64_example : GCD 240 46 = Some (2, -9, 47) /\ modinv 3 7 = -2 /\ modinv (-1) 5 = 1 /\ modinv 0 5 = 0 /\
  GCD 0 0 = Some (0, 0, 1) /\ GCD (-6) 4 = Some (-2, 1, 1).
Proof. vm_compute. repeat split; reflexivity. Qed.

(** ** C63 finite field arithmetic *)
Theorem C63_results_canonical : forall p a b, 1 < p ->
  0 <= fadd p a b < p /\ 0 <= fsub p a b < p /\ 0 <= fmul p a b < p /\ 0 <= fdiv p a b < p.
Proof. intros p a b P. repeat split; apply Z.mod_pos_bound; lia. Qed.
Print Assumptions C63_results_canonical.
Theorem C63_ring_ops : forall p a b, 1 < p ->
  same p (fadd p a b) (a + b) /\ same p (fsub p a b) (a - b) /\ same p (fmul p a b) (a * b) /\ same p (fneg_ p a) (- a) /\
  (forall e, 0 <= e -> same p (fpow p a e) (a ^ e) /\ 0 <= fpow p a e < p) /\
  (feq p a b = true <-> same p a b).
Proof.
  intros p a b P. repeat split; try (apply cong_mod; lia); try (apply fneg_cong); try (apply feq_cong; lia).
  - apply fpow_cong; lia.
  - unfold fpow. rewrite modpow_spec by lia. apply Z.mod_pos_bound. lia.
  - unfold fpow. rewrite modpow_spec by lia. apply Z.mod_pos_bound. lia.
Qed.
Print Assumptions C63_ring_ops.
(** division inverts multiplication for every positive divisor that is not a multiple of p *)
Theorem C63_division : forall p a b, prime p -> 0 < b -> ~ same p b 0 ->
  same p (fdiv p a b * b) a /\ (forall q, same p (q * b) a -> q mod p = fdiv p a b).
Proof.
  intros p a b P B N. pose proof (prime_pos p P) as P1. assert (ND : ~ (p | b)) by (rewrite same_cong, cong_0 in N; exact N).
  pose proof (fdiv_mul p a b P B ND) as D. split; [exact D|]. intros q Q. assert (E : cong p q (fdiv p a b)).
  { apply (cong_cancel p _ _ b P ND). rewrite D. exact Q. }
  apply cong_iff in E; [|lia]. rewrite E. apply Z.mod_small. apply Z.mod_pos_bound. lia.
Qed.
Print Assumptions C63_division.
Theorem C63_division_by_zero : forall p a, 1 < p -> fdiv p a 0 = 0.
Proof. intros p a P. unfold fdiv, finverse. rewrite modinv_0, Z.mul_0_r. apply Z.mod_0_l. lia. Qed.
Print Assumptions C63_division_by_zero.
(** negating zero gives the modulus itself, which equals zero but divides like one *)
Theorem C63_negated_zero : forall p, 1 < p -> fneg_ p 0 = p /\ feq p (fneg_ p 0) 0 = true /\ (forall a, fdiv p a (fneg_ p 0) = a mod p).
Proof.
  intros p P. assert (fneg_ p 0 = p) as -> by (unfold fneg_; lia). split; [reflexivity|]. split; [apply feq_cong; [lia|apply cong_p_0]|].
  intros a. unfold fdiv, finverse, modinv. destruct (GCD_Some p p) as (g & c & d & E). rewrite E. unfold GCD in E.
  assert (c = 1); [|subst; rewrite Z.mul_1_r; reflexivity].
  set (f := (Z.to_nat (2 * bit_length p) + 2)%nat) in E. assert (exists k, f = S (S k)) as [k ->] by (exists (Z.to_nat (2 * bit_length p)); unfold f; lia).
  cbn [GCD_fuel] in E. replace (p =? 0) with false in E by lia. rewrite Z.mod_same in E by lia. rewrite Z.eqb_refl in E. rewrite Z.div_same in E by lia. inversion E. lia.
Qed.
Print Assumptions C63_negated_zero.
(** a negative divisor gives the negated quotient *)
Theorem C63_negative_divisor : forall p a b, prime p -> b < 0 -> ~ same p b 0 -> same p (fdiv p a b * b) (- a).
Proof.
  intros p a b P B N. pose proof (prime_pos p P) as P1. assert (ND : ~ (p | b)) by (rewrite same_cong, cong_0 in N; exact N). apply same_cong.
  rewrite fdiv_cong by lia. replace (a * finverse p b * b) with (a * (b * finverse p b)) by ring. rewrite (finv_neg_cong p b P B ND). apply cong_eq. ring.
Qed.
Print Assumptions C63_negative_divisor.
Example C63_example : fadd 7 5 4 = 2 /\ fsub 7 2 5 = 4 /\ fdiv 7 1 3 = 5 /\ fneg_ 7 0 = 7 /\ fdiv 7 3 0 = 0 /\ fdiv 7 3 7 = 3 /\ fdiv 7 1 (-3) = 5 /\
  prime 313.
Proof. do 7 (split; [vm_compute; reflexivity|]). exact pr_313. Qed.

(** ** C69 sqrtCQ *)
Theorem C69_root : forall p v, prime p -> p mod 4 = 3 -> 0 <= v < p ->
  (square p v -> exists z, sqrtCQ v p = Some z /\ 0 <= z < p /\ same p (z * z) v) /\
  (~ square p v -> sqrtCQ v p = None).
Proof.
  intros p v Hp H V. split.
  - intros [s S]. destruct (sqrtCQ_total p v s Hp H V S) as [z Z]. exists z. split; [exact Z|]. destruct (sqrtCQ_root p v z Hp H Z) as (A & _ & B). tauto.
  - intros N. destruct (sqrtCQ v p) as [z|] eqn:E; [|reflexivity]. exfalso. apply N. exists z. apply (sqrtCQ_root p v z Hp H E).
Qed.
Print Assumptions C69_root.
Theorem C69_out_of_range : forall p v, prime p -> p mod 4 = 3 -> ~ 0 <= v < p -> sqrtCQ v p = None.
Proof.
  intros p v Hp H V. destruct (sqrtCQ v p) as [z|] eqn:E; [|reflexivity]. exfalso. apply V. apply (sqrtCQ_root p v z Hp H E).
Qed.
Print Assumptions C69_out_of_range.
(** for p = 1 mod 4 (and any modulus whose bit 1 is clear) no root is ever returned *)
Theorem C69_one_mod_four : forall p v, 0 <= p -> p mod 4 = 1 -> sqrtCQ v p = None.
Proof.
  intros p v P H. unfold sqrtCQ. rewrite test_bit1_mod by exact P. rewrite H. change (2 <=? 1) with false. cbv iota. destruct (negb _); reflexivity.
Qed.
Print Assumptions C69_one_mod_four.
Example C69_example : sqrtCQ 2 7 = Some 4 /\ sqrtCQ 3 7 = None /\ sqrtCQ 4 5 = None /\ (2 * 2) mod 5 = 4 /\ p256 mod 4 = 3 /\ prime p256.
Proof. do 5 (split; [vm_compute; reflexivity|]). exact prime_p256. Qed.

(** ** C68 what the arguments stand for: [integer] accepts exactly the arguments that denote a
    number, and other text raises *)
Theorem C68_arguments : forall a, (forall z, integer a = Ok z <-> denotes_number a z) /\
  ((forall z, ~ denotes_number a z) -> exists e, integer a = Raise e).
Proof.
  assert (G : forall a z, integer a = Ok z <-> denotes_number a z).
  { intros [x|x|t] z; cbn [integer].
    - split; [intros H; assert (z = x) as -> by congruence; constructor|intros H; inversion H; reflexivity].
    - split; [intros H; assert (z = x) as -> by congruence; constructor|intros H; inversion H; reflexivity].
    - split.
      + unfold unhexlify. destruct (forallb _ t); [|discriminate]. destruct (unhex_codes t) as [d|] eqn:U; [|discriminate]. cbn [rbind]. intros H.
        assert (z = bytes2z BE d) as -> by congruence. rewrite <- num_be_bytes2z. constructor. apply unhex_denotes, U.
      + intros H. inversion H as [| |t' b D E1 E2]; subst. unfold unhexlify. rewrite (hex_text_ascii _ (hex_denotes_text _ _ D)). apply unhex_denotes in D. rewrite D. cbn [rbind]. rewrite num_be_bytes2z. reflexivity. }
  intros a. split; [apply G|]. intros N. destruct (integer a) as [z|e] eqn:E; [|exists e; reflexivity]. destruct (N z). apply G, E.
Qed.
Print Assumptions C68_arguments.
(** ** C68 crack1 / crack2 *)
Theorem C68_crack1 : forall n rnum snum message signsecret r s m k x, prime n ->
  integer rnum = Ok r -> integer snum = Ok s -> integer message = Ok m -> integer signsecret = Ok k ->
  0 < r -> ~ same n r 0 -> same n (s * k) (m + x * r) ->
  crack1 n rnum snum message signsecret = Ok (x mod n).
Proof.
  intros n rnum snum message signsecret r s m k x Hn R S M K R0 RN E. unfold crack1. rewrite M, R, S, K. cbn [rbind]. f_equal.
  pose proof (prime_pos n Hn). symmetry. apply (C63_division n _ r Hn R0 RN). apply same_cong. rewrite fsub_cong, fmul_cong by lia.
  rewrite same_cong in E. rewrite E. apply cong_eq. ring.
Qed.
Print Assumptions C68_crack1.
(** the secret of a signature produced by sign gives away the private key *)
Theorem C68_crack1_sign : forall E n message privkey secret r s x k, e_n E = OInt n -> prime n ->
  integer privkey = Ok x -> integer secret = Ok k -> 0 < k -> ~ same n k 0 ->
  ecdsa_sign E message privkey secret = Ok (r, s) -> 0 < r -> ~ same n r 0 ->
  crack1 n (AVal r) (AVal s) message secret = Ok (x mod n).
Proof.
  intros E n message privkey secret r s x k En Hn X K K0 KN S R0 RN. unfold ecdsa_sign in S.
  destruct (integer message) as [m|] eqn:M; [|discriminate S]. cbn [rbind] in S. rewrite X, K in S. cbn [rbind] in S.
  destruct (ec_mul (e_curve E) (e_G E) (AVal k)) as [R|] eqn:RR; [|discriminate S]. cbn [rbind] in S. rewrite En in S.
  assert (ES : r = fst R /\ s = fdiv n (fadd n m (fmul n x (fst R))) k) by (split; congruence). destruct ES as [-> ->].
  pose proof (prime_pos n Hn). eapply C68_crack1; try eassumption; try reflexivity.
  destruct (C63_division n (fadd n m (fmul n x (fst R))) k Hn K0 KN) as [D _]. rewrite same_cong in *. rewrite D. rewrite fadd_cong, fmul_cong by lia. reflexivity.
Qed.
Print Assumptions C68_crack1_sign.

(** the difference of the two s is positive when taken between integers in the right
    order, or reduced when one of them is a field value *)
Definition usable_difference (s1 s2 : farg) : Prop :=
  match s1, s2 with
  | AInt a, AInt b => b < a
  | AVal _, _ | _, AVal _ => True
  | _, _ => False
  end.
Definition no_text_difference (m1 m2 : farg) : Prop :=
  match m1, m2 with AInt _, AInt _ | AVal _, _ | _, AVal _ => True | _, _ => False end.
Lemma arg_sub_spec n x y a b : 1 < n -> integer x = Ok a -> integer y = Ok b -> no_text_difference x y ->
  exists d z, arg_sub n x y = Ok d /\ integer d = Ok z /\ cong n z (a - b) /\
    (usable_difference x y -> ~ cong n (a - b) 0 -> 0 < z /\ ~ (n | z)).
Proof.
  intros N X Y T. assert (V : forall a b, exists d z, Ok (AVal (fsub n a b)) = Ok d /\ integer d = Ok z /\ cong n z (a - b) /\ (~ cong n (a - b) 0 -> 0 < z /\ ~ (n | z))).
  { intros u v. exists (AVal (fsub n u v)), (fsub n u v). split; [reflexivity|]. split; [reflexivity|]. split; [apply fsub_cong; lia|].
    intros H. apply (pos_of_ncong n (u - v)); [apply fsub_pos; lia|apply fsub_cong; lia|exact H]. }
  destruct x as [u|u|t], y as [v|v|w]; cbn [arg_sub no_text_difference usable_difference] in *; try contradiction; rewrite ?X, ?Y; cbn [rbind integer] in *.
  1:{ assert (u = a) as -> by congruence. assert (v = b) as -> by congruence. exists (AInt (a - b)), (a - b). split; [reflexivity|]. split; [reflexivity|]. split; [reflexivity|].
      intros U H. split; [lia|]. apply ncong_ndiv, H. }
  all: repeat match goal with H : Ok ?u = Ok ?a |- _ => assert (u = a) as -> by congruence; clear H end.
  all: destruct (V a b) as (d & z & A & B & C & D); exists d, z; auto.
Qed.
Theorem C68_crack2 : forall n r s1 s2 m1 m2 rv s1v s2v m1v m2v k x, prime n ->
  integer r = Ok rv -> integer s1 = Ok s1v -> integer s2 = Ok s2v -> integer m1 = Ok m1v -> integer m2 = Ok m2v ->
  0 < rv -> ~ same n rv 0 ->
  same n (s1v * k) (m1v + x * rv) -> same n (s2v * k) (m2v + x * rv) -> ~ same n s1v s2v ->
  usable_difference s1 s2 -> no_text_difference m1 m2 ->
  crack2 n r s1 s2 m1 m2 = Ok (k mod n, x mod n).
Proof.
  intros n r s1 s2 m1 m2 rv s1v s2v m1v m2v k x Hn R S1 S2 M1 M2 R0 RN E1 E2 SN U T. pose proof (prime_pos n Hn).
  assert (T' : no_text_difference s1 s2) by (destruct s1, s2; cbn in *; tauto).
  destruct (arg_sub_spec n s1 s2 s1v s2v ltac:(lia) S1 S2 T') as (d & ds & A & B & C & D).
  destruct (arg_sub_spec n m1 m2 m1v m2v ltac:(lia) M1 M2 T) as (d' & dm & A' & B' & C' & _).
  rewrite same_cong in *. destruct (D U) as [D0 DN]; [rewrite <- cong_0_iff; exact SN|].
  unfold crack2. rewrite A. cbn [rbind]. rewrite B. cbn [rbind]. rewrite A'. cbn [rbind]. rewrite B'. cbn [rbind].
  assert (K : fdiv n dm ds = k mod n).
  { symmetry. apply (C63_division n dm ds Hn D0); [rewrite same_cong, cong_0; exact DN|]. rewrite same_cong, C, C'.
    replace (k * (s1v - s2v)) with (s1v * k - s2v * k) by ring. rewrite E1, E2. apply cong_eq. ring. }
  rewrite K. assert (KK : cong n (k mod n) k) by (apply cong_mod; lia).
  assert (X1 : crack1 n r s1 m1 (AVal (k mod n)) = Ok (x mod n)).
  { eapply (C68_crack1 n r s1 m1 (AVal (k mod n)) rv s1v m1v (k mod n) x); try eassumption; try reflexivity. rewrite same_cong, KK. exact E1. }
  assert (X2 : crack1 n r s2 m2 (AVal (k mod n)) = Ok (x mod n)).
  { eapply (C68_crack1 n r s2 m2 (AVal (k mod n)) rv s2v m2v (k mod n) x); try eassumption; try reflexivity. rewrite same_cong, KK. exact E2. }
  rewrite X1. cbn [rbind]. rewrite X2. reflexivity.
Qed.
Print Assumptions C68_crack2.
(** with plain integers s1 < s2 the secret comes out negated *)
Theorem C68_crack2_wrong_order : forall n r s1 s2 m1 m2 rv k x, prime n -> integer r = Ok rv ->
  same n (s1 * k) (m1 + x * rv) -> same n (s2 * k) (m2 + x * rv) -> ~ same n s1 s2 -> s1 < s2 ->
  exists x', crack2 n r (AInt s1) (AInt s2) (AInt m1) (AInt m2) = Ok ((- k) mod n, x').
Proof.
  intros n r s1 s2 m1 m2 rv k x Hn R E1 E2 SN L. pose proof (prime_pos n Hn). unfold crack2, crack1. cbn [arg_sub rbind integer]. rewrite R. cbn [rbind].
  eexists. f_equal. f_equal. rewrite same_cong in *.
  assert (ND : ~ (n | s1 - s2)) by exact SN.
  assert (E : cong n (fdiv n (m1 - m2) (s1 - s2)) (- k)).
  { apply (cong_cancel n _ _ (s1 - s2) Hn ND). pose proof (C63_negative_divisor n (m1 - m2) (s1 - s2) Hn ltac:(lia)) as G. rewrite !same_cong in G.
    rewrite G by (rewrite cong_0; exact ND). replace (- k * (s1 - s2)) with (- (s1 * k - s2 * k)) by ring. rewrite E1, E2. apply cong_eq. ring. }
  apply cong_iff in E; [|lia]. rewrite <- E. symmetry. apply Z.mod_small. apply Z.mod_pos_bound. lia.
Qed.
Print Assumptions C68_crack2_wrong_order.
Example C68_example : (* n = 313, x = 5, k = 7, r = 11; m1 = 100, m2 = 200 *)
  let s1 := fdiv 313 (100 + 5 * 11) 7 in let s2 := fdiv 313 (200 + 5 * 11) 7 in
  crack1 313 (AInt 11) (AInt s1) (AInt 100) (AInt 7) = Ok 5 /\
  crack2 313 (AInt 11) (AVal s1) (AVal s2) (AInt 100) (AInt 200) = Ok (7, 5) /\
  s1 < s2 /\ crack2 313 (AInt 11) (AInt s1) (AInt s2) (AInt 100) (AInt 200) = Ok (313 - 7, 176).
Proof. vm_compute. repeat split; reflexivity. Qed.

(** ** C70 next_random_integer *)
Lemma skipn_last {A} (d : A) : forall l q, length l = S q -> skipn q l = [nth q l d].
Proof.
  induction l as [|u t IH]; intros [|q] L; cbn in *; try lia.
  - destruct t; [reflexivity|cbn in L; lia].
  - apply IH. lia.
Qed.
Theorem C70_value : forall rnd b, 0 < b < 2 ^ 53 -> b / 8 < zlen rnd ->
  exists hi last, firstn (Z.to_nat (b / 8) + 1) rnd = hi ++ [last] /\
    next_random_integer rnd b = Ok (256 * num_be hi + b2z last mod 2 ^ (b mod 8)).
Proof.
  intros rnd b B L. unfold next_random_integer. replace (b <? 0) with false by lia. replace (b =? 0) with false by lia.
  rewrite int_div_8 by lia. cbn [rbind]. assert (Q : 0 <= b / 8) by (apply Z.div_pos; lia).
  replace (Z.to_nat (b / 8 + 1)) with (S (Z.to_nat (b / 8))) by lia. replace (Z.to_nat (b / 8 + 1 - 1)) with (Z.to_nat (b / 8)) by lia.
  set (q := Z.to_nat (b / 8)) in *. assert (LL : (q < length rnd)%nat) by (unfold zlen in L; lia).
  rewrite Nat.add_1_r. set (ba := firstn (S q) rnd). assert (Lb : length ba = S q) by (unfold ba; apply firstn_length_le; lia).
  exists (firstn q ba), (nth q ba x00). split.
  { assert (Sk : skipn q ba = [nth q ba x00]).
    { apply skipn_last, Lb. }
    rewrite <- Sk. symmetry. apply firstn_skipn. }
  f_equal. unfold bytes2z, order_bytes. rewrite rev_app_distr. cbn [rev app le2z]. rewrite <- num_be_eq.
  assert (M : b2z (if b mod 8 =? 0 then x00 else z2b (Z.land (b2z (nth q ba x00)) (Z.shiftl 1 (b mod 8) - 1))) = b2z (nth q ba x00) mod 2 ^ (b mod 8)).
  { pose proof (Z.mod_pos_bound b 8 ltac:(lia)). pose proof (b2z_range (nth q ba x00)).
    destruct (Z.eqb_spec (b mod 8) 0) as [->|N]; [rewrite Z.mod_1_r; reflexivity|].
    rewrite Z.shiftl_1_l. replace (2 ^ (b mod 8) - 1) with (Z.ones (b mod 8)) by (rewrite Z.ones_equiv; lia). rewrite Z.land_ones by lia.
    apply z2b_small. assert (P : 0 < 2 ^ (b mod 8)) by (apply Z.pow_pos_nonneg; lia). pose proof (Z.mod_pos_bound (b2z (nth q ba x00)) (2 ^ (b mod 8)) P).
    pose proof (Z.mod_le (b2z (nth q ba x00)) (2 ^ (b mod 8)) ltac:(lia) P). lia. }
  rewrite M. lia.
Qed.
Print Assumptions C70_value.
Lemma num_be_ff q : num_be (repeat xff q) = 256 ^ Z.of_nat q - 1.
Proof.
  rewrite num_be_eq. assert (R : rev (repeat xff q) = repeat xff q).
  { induction q as [|q IH]; [reflexivity|]. cbn [repeat rev]. rewrite IH. symmetry. apply (repeat_cons q xff). }
  rewrite R. clear R. induction q as [|q IH]; [reflexivity|]. cbn [repeat le2z]. rewrite IH. rewrite pow256_S. change (b2z xff) with 255. lia.
Qed.
(** from eight bits on, a source of 0xff bytes yields a number too large for the size *)
Theorem C70_too_large : forall b, 8 <= b < 2 ^ 53 -> exists rnd r, next_random_integer rnd b = Ok r /\ 2 ^ b <= r.
Proof.
  intros b B. set (q := Z.to_nat (b / 8)). assert (Q : 1 <= b / 8) by (apply Z.div_le_lower_bound; lia).
  destruct (C70_value (repeat xff (S q)) b ltac:(lia)) as (hi & last & E & N); [unfold zlen; rewrite repeat_length; unfold q; lia|].
  exists (repeat xff (S q)). eexists. split; [exact N|].
  fold q in E. rewrite Nat.add_1_r in E. rewrite firstn_all2 in E by (rewrite repeat_length; lia).
  assert (R : repeat xff (S q) = repeat xff q ++ [xff]) by apply repeat_cons. rewrite R in E. apply app_inj_tail in E. destruct E as [<- <-].
  assert (V : num_be (repeat xff q) = 256 ^ Z.of_nat q - 1) by (apply num_be_ff).
  rewrite V. pose proof (Z.div_mod b 8 ltac:(lia)) as D. pose proof (Z.mod_pos_bound b 8 ltac:(lia)).
  assert (P : 2 ^ b = 256 ^ Z.of_nat q * 2 ^ (b mod 8)).
  { rewrite D at 1. rewrite Z.pow_add_r by lia. rewrite Z.pow_mul_r by lia. change (2 ^ 8) with 256. unfold q. rewrite Z2Nat.id by lia. reflexivity. }
  rewrite P. assert (P7 : 2 ^ (b mod 8) <= 2 ^ 7) by (apply Z.pow_le_mono_r; lia). change (2 ^ 7) with 128 in P7.
  assert (P1 : 0 < 2 ^ (b mod 8)) by (apply Z.pow_pos_nonneg; lia).
  assert (G : 256 ^ 1 <= 256 ^ Z.of_nat q) by (apply Z.pow_le_mono_r; lia). change (256 ^ 1) with 256 in G.
  pose proof (Z.mod_pos_bound (b2z xff) (2 ^ (b mod 8)) P1). nia.
Qed.
Print Assumptions C70_too_large.
Theorem C70_edge : forall rnd, next_random_integer rnd 0 = Ok 0 /\ (forall b, b < 0 -> next_random_integer rnd b = Raise PlainException).
Proof. intros rnd. split; [reflexivity|]. intros b B. unfold next_random_integer. replace (b <? 0) with true by lia. reflexivity. Qed.
Print Assumptions C70_edge.
Example C70_example : next_random_integer [x12; x34; x56] 12 = Ok (256 * 0x12 + 4) /\ next_random_integer [xff; xff] 8 = Ok 65280.
Proof. vm_compute. split; reflexivity. Qed.
