(** * L_Crypto: bitcoin.decompress under a curve with p = 3 mod 4 *)
From Coq Require Import ZArith Znumtheory Lia List Setoid.
From Verif Require Import M_Py M_Hash M_UInt M_ECCurve M_KeyPair M_Crypto L_Bytes L_IO L_Fermat L_Prime L_Field L_EC L_EC2 L_EC3 S_IO S_EC.
Import ListNotations.
Open Scope Z_scope.

Definition goodp (c : curve_params) : Prop := prime (cp_p c) /\ cp_p c mod 4 = 3 /\ cp_p c < 2 ^ 256.

(** the candidate square root is a root of v or of -v *)
Lemma root_or_neg p v : prime p -> p mod 4 = 3 -> let r := v ^ ((p + 1) / 4) in cong p (r * r) v \/ cong p (r * r) (- v).
Proof.
  intros Hp H3 r. pose proof (prime_pos p Hp). pose proof (Z.div_mod p 4 ltac:(lia)) as D. pose proof (Z.div_pos p 4 ltac:(lia) ltac:(lia)).
  assert (E : (p + 1) / 4 = p / 4 + 1) by (symmetry; apply Z.div_unique with (r := 0); lia).
  set (h := 2 * (p / 4) + 1).
  assert (R : r * r = v * v ^ h).
  { unfold r. rewrite E, <- Z.pow_add_r by lia. replace (p / 4 + 1 + (p / 4 + 1)) with (Z.succ h) by (unfold h; lia). apply Z.pow_succ_r. unfold h. lia. }
  destruct (Zdivide_dec p v) as [D0|N].
  - left. assert (Z0 : cong p v 0) by (apply cong_0, D0). rewrite R. transitivity (0 * v ^ h); [apply cong_mul; [exact Z0|reflexivity]|]. symmetry. exact Z0.
  - assert (F : cong p (v ^ h * v ^ h - 1) 0).
    { rewrite <- cong_0_iff. rewrite <- Z.pow_add_r by (unfold h; lia). replace (h + h) with (p - 1) by (unfold h; lia). apply fermat_cong; assumption. }
    replace (v ^ h * v ^ h - 1) with ((v ^ h - 1) * (v ^ h + 1)) in F by ring.
    destruct (cong_mul_0 _ _ _ Hp F) as [G|G].
    + left. rewrite R. apply (cong_0_iff p (v ^ h) 1) in G. rewrite G. apply cong_eq. ring.
    + right. rewrite R. assert (G' : cong p (v ^ h) (-1)) by (apply cong_0_iff; replace (v ^ h - -1) with (v ^ h + 1) by ring; exact G). rewrite G'. apply cong_eq. ring.
Qed.
Definition rhs (c : curve_params) (x : Z) : Z := x * x * x + cp_a c * x + cp_b c.
Definition bd_y (c : curve_params) (f : byte) (x : Z) : Z :=
  let beta := modpow (rhs c x) ((cp_p c + 1) / 4) (cp_p c) in if (beta + b2z f) mod 2 =? 0 then beta else cp_p c - beta.
Lemma num_be_bytes2z l : num_be l = bytes2z BE l.
Proof. apply (num_eq BE). Qed.
Lemma be32_z z l : be32 z l -> z2bytes BE 32 z = l /\ bytes2z BE l = z.
Proof. intros [L V]. rewrite num_be_bytes2z in V. rewrite <- V. split; [rewrite <- L; apply z2bytes_bytes2z|reflexivity]. Qed.
Lemma be32_z2bytes z : 0 <= z < 2 ^ 256 -> be32 z (z2bytes BE 32 z).
Proof. intros H. split; [apply z2bytes_length|]. rewrite num_be_bytes2z, bytes2z_z2bytes. apply Z.mod_small. change (256 ^ Z.of_nat 32) with (2 ^ 256). exact H. Qed.
Lemma to_bytes_be32 z l : be32 z l -> int_to_bytes BE false 32 z = Ok l.
Proof.
  intros B. destruct (be32_z z l B) as [Ez _]. destruct B as [L V]. pose proof (num_be_bound l) as R. rewrite V in R. unfold zlen in R. rewrite L in R.
  unfold int_to_bytes. rewrite (proj2 (int_fits_spec false 32 z ltac:(lia))); [rewrite Ez; reflexivity|]. cbn [int_min int_max]. lia.
Qed.
Lemma to_bytes_overflow z : ~ (0 <= z < 2 ^ 256) -> int_to_bytes BE false 32 z = Raise OverflowError.
Proof.
  intros N. unfold int_to_bytes. destruct (int_fits false 32 z) eqn:F; [|reflexivity]. exfalso. apply N.
  apply (int_fits_spec false 32 z ltac:(lia)) in F. cbn [int_min int_max] in F. change (256 ^ Z.of_nat 32) with (2 ^ 256) in F. lia.
Qed.
Lemma bd_eq c f xb x : be32 x xb -> f = x02 \/ f = x03 -> bitcoin_decompress c (f :: xb) = Ok (x04 :: xb ++ z2bytes BE 32 (bd_y c f x)).
Proof.
  intros B F. destruct (be32_z x xb B) as [E1 E2]. cbn [bitcoin_decompress]. rewrite E2, E1. unfold bd_y, rhs.
  destruct F as [-> | ->]; [change (b2z x02) with 2|change (b2z x03) with 3]; reflexivity.
Qed.
Lemma bd_y_spec c f x : goodp c -> f = x02 \/ f = x03 ->
  0 <= bd_y c f x <= cp_p c /\ (cong (cp_p c) (bd_y c f x * bd_y c f x) (rhs c x) \/ cong (cp_p c) (bd_y c f x * bd_y c f x) (- rhs c x)) /\
  (square (cp_p c) (rhs c x) -> cong (cp_p c) (bd_y c f x * bd_y c f x) (rhs c x)) /\
  Z.odd (bd_y c f x) = Z.odd (b2z f).
Proof.
  intros (Hp & M & B) F. pose proof (prime_pos _ Hp). unfold bd_y. cbn zeta. set (v := rhs c x). set (p := cp_p c) in *.
  rewrite modpow_spec by (try apply Z.div_pos; lia). set (e := (p + 1) / 4). set (beta := v ^ e mod p).
  assert (CB : cong p beta (v ^ e)) by (unfold beta; apply cong_mod; lia).
  assert (BR : 0 <= beta < p) by (apply Z.mod_pos_bound; lia).
  set (y := if (beta + b2z f) mod 2 =? 0 then beta else p - beta).
  assert (CY : cong p (y * y) (v ^ e * v ^ e)).
  { unfold y. destruct (_ =? 0); [rewrite CB; reflexivity|]. rewrite <- CB. pose proof (fneg_cong p beta) as FN. unfold fneg_ in FN. rewrite FN. apply cong_eq. ring. }
  split; [unfold y; destruct (_ =? 0); lia|]. split; [|split].
  - destruct (root_or_neg p v Hp M) as [G|G]; [left|right]; rewrite CY; exact G.
  - intros [s S]. rewrite same_cong in S. rewrite CY. rewrite <- S at 3. rewrite <- (pow_even_root p s Hp M). apply cong_mul; apply cong_pow; symmetry; exact S.
  - pose proof (mod4_odd p M) as O. unfold y. rewrite mod2_odd, Z.odd_add. destruct (Z.odd beta) eqn:OB, (Z.odd (b2z f)) eqn:OF; cbn [negb xorb]; rewrite ?odd_flip by exact O; rewrite OB; reflexivity.
Qed.
(** on the curve: the point itself *)
Lemma bd_y_point c f x y : goodp c -> canonical (cp_p c) (x, y) -> equation (cp_p c) (cp_a c) (cp_b c) x y -> y <> 0 ->
  f = (if Z.even y then x02 else x03) -> bd_y c f x = y.
Proof.
  intros G [CX CY] E N F. assert (F' : f = x02 \/ f = x03) by (subst f; destruct (Z.even y); tauto).
  destruct (bd_y_spec c f x G F') as (R & _ & Q & O). destruct G as (Hp & M & B). cbn [fst snd] in *. unfold equation in E. rewrite same_cong in E.
  assert (Q' : cong (cp_p c) (bd_y c f x * bd_y c f x) (y * y)). { rewrite Q; [symmetry; exact E|]. exists y. rewrite same_cong. exact E. }
  assert (R' : bd_y c f x < cp_p c).
  { destruct (Z.eq_dec (bd_y c f x) (cp_p c)) as [Ep|]; [|lia]. exfalso. rewrite Ep in Q'.
    assert (Z0 : cong (cp_p c) (y * y) 0). { rewrite <- Q'. apply cong_0. exists (cp_p c). reflexivity. }
    destruct (cong_mul_0 _ _ _ Hp Z0) as [Y0|Y0]; apply cong_small in Y0; lia. }
  apply (parity_unique (cp_p c)); try assumption; [lia|]. left. rewrite O, F. rewrite <- (Z.negb_even y). destruct (Z.even y); reflexivity.
Qed.
