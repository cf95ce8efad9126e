(** * L_Wrong: which scalars k, 0 < k < N, act as k on a point of order N *)
From Coq Require Import ZArith Znumtheory Lia Bool List Floats.SpecFloat.
From Verif Require Import M_Py M_Float M_ECCurve S_EC S_Group L_Float L_Mul L_Mul2 L_Prime2.
Import ListNotations.
Open Scope Z_scope.

(** bits 0 .. n-1 of w are zero *)
Definition low_zero (w n : Z) : bool := Z.land w (Z.ones n) =? 0.
Lemma low_zero_spec w n : 0 <= n -> low_zero w n = (w mod 2 ^ n =? 0).
Proof. intros N. unfold low_zero. rewrite Z.land_ones by exact N. reflexivity. Qed.
(** the scalar k is turned into the digits: a zeros, then ones up to position s *)
Definition consistent (k a s : Z) : bool :=
  match int_truediv k 2 with
  | Ok (S754_finite _ m e) =>
      let n := s - e - 1074 in
      if (n =? 53) || (n =? 54) then
        let w := Z.shiftl (Zpos m) (e + 1074) in
        if low_zero w (1075 + a) then false else (a =? 0) || low_zero w (1074 + a)
      else false
  | _ => false
  end.
Definition range (n : nat) : list Z := map Z.of_nat (seq 0 n).
Lemma in_range n z : 0 <= z < Z.of_nat n -> In z (range n).
Proof. intros H. unfold range. apply in_map_iff. exists (Z.to_nat z). split; [lia|]. apply in_seq. lia. Qed.
Definition adj (N d : Z) : Z := if d <? 0 then d + N else if d <? N then d else d - N.
(** no scalar other than those in [except]; A is 2^(s+1) modulo N *)
Definition no_good (N : Z) (except : list Z) (s A : Z) : bool :=
  if (2 ^ (s - 1072) <? N) && (2 ^ (s - 1072) <? A) then true
  else forallb (fun a => forallb (fun o =>
         let k := adj N (adj N (o + A - Z.shiftl 1 (a + 1))) in
         if existsb (Z.eqb k) except then true else if Bool.eqb (Z.odd k) (o =? 1) then negb (consistent k a s) else true) [0; 1]) (range 256).
Fixpoint scan (n : nat) (N : Z) (except : list Z) (s A : Z) : bool :=
  match n with O => true | S n' => if no_good N except s A then scan n' N except (s + 1) (adj N (2 * A)) else false end.
Lemma scan_ok n N except : 0 < N -> forall s A, 0 <= s -> scan n N except s A = true -> A = 2 ^ (s + 1) mod N ->
  forall i, 0 <= i < Z.of_nat n -> no_good N except (s + i) (2 ^ (s + i + 1) mod N) = true.
Proof.
  intros HN. induction n as [|n IH]; intros s A S0 H EA i I; [lia|]. cbn [scan] in H. destruct (no_good N except s A) eqn:G; [|discriminate].
  destruct (Z.eq_dec i 0) as [->|Ni]; [rewrite Z.add_0_r, <- EA; exact G|]. replace (s + i) with (s + 1 + (i - 1)) by lia. apply (IH (s + 1) (adj N (2 * A))); [lia|exact H| |lia].
  assert (B : 0 <= A < N) by (rewrite EA; apply Z.mod_pos_bound, HN). unfold adj. replace (2 * A <? 0) with false by lia.
   replace (2 ^ (s + 1 + 1)) with (2 * 2 ^ (s + 1)) by (rewrite (Z.add_1_r (s + 1)), Z.pow_succ_r by lia; reflexivity).
  rewrite <- Z.mul_mod_idemp_r by lia. rewrite <- EA. destruct (2 * A <? N) eqn:L; [symmetry; apply Z.mod_small; lia|].
  replace (2 * A) with (2 * A - N + 1 * N) at 2 by lia. rewrite Z.mod_add by lia. symmetry. apply Z.mod_small. lia.
Qed.
Lemma existsb_in k l : existsb (Z.eqb k) l = true -> In k l.
Proof. intros H. apply existsb_exists in H. destruct H as (x & I & E). apply Z.eqb_eq in E. congruence. Qed.

Lemma no_good_ok N except : 2 ^ 255 < N < 2 ^ 256 -> scan 258 N except 1074 (2 ^ 1075 mod N) = true ->
  forall k f a s, 0 < k < N -> int_truediv k 2 = Ok f -> (a <= s)%nat -> 1074 <= Z.of_nat s <= 1331 -> Z.of_nat a <= 255 ->
  (exists sg m e n, f = S754_finite sg m e /\ 2 ^ 52 <= Zpos m < 2 ^ 53 /\ -53 <= e <= 203 /\ (53 <= n <= 54)%nat /\ s = (Z.to_nat (e + 1074) + n)%nat /\
    (Zpos m * 2 ^ (e + 1074)) mod 2 ^ (1075 + Z.of_nat a) <> 0 /\ (a = 0%nat \/ (Zpos m * 2 ^ (e + 1074)) mod 2 ^ (1074 + Z.of_nat a) = 0)) ->
  k <= 2 ^ (Z.of_nat s - 1073) -> Z.of_nat a <= Z.of_nat s - 1074 ->
  (N | k mod 2 + 2 * (2 ^ Z.of_nat s - 2 ^ Z.of_nat a) - k) -> In k except.
Proof.
  intros HN G k f a s K F AS S1 A1 (sg & m & e & n & -> & M & E & Hn & Es & W1 & W2) KS A2 D.
  assert (NP : 0 < N) by lia. assert (G' : no_good N except (Z.of_nat s) (2 ^ (Z.of_nat s + 1) mod N) = true).
  { pose proof (scan_ok 258 N except NP 1074 _ ltac:(lia) G eq_refl (Z.of_nat s - 1074) ltac:(lia)) as X. replace (1074 + (Z.of_nat s - 1074)) with (Z.of_nat s) in X by lia. exact X. }
  clear G. unfold no_good in G'. pose proof (Z.mod_pos_bound k 2 ltac:(lia)) as O. set (o := k mod 2) in *. set (S' := Z.of_nat s) in *. set (a' := Z.of_nat a) in *.
  assert (C : adj N (adj N (o + 2 ^ (S' + 1) mod N - Z.shiftl 1 (a' + 1))) = k).
  { pose proof (Z.mod_pos_bound (2 ^ (S' + 1)) N NP) as B. rewrite Z.shiftl_mul_pow2, Z.mul_1_l by lia.
    assert (Ba : 0 < 2 ^ (a' + 1) <= 2 ^ 256) by (split; [apply Z.pow_pos_nonneg; lia|apply Z.pow_le_mono_r; lia]).
    set (d := o + 2 ^ (S' + 1) mod N - 2 ^ (a' + 1)). assert (Dd : (N | d - k)).
    { apply L_Fermat.divide_mod_eq; [exact NP|]. unfold d. replace (o + 2 ^ (S' + 1) mod N - 2 ^ (a' + 1)) with (2 ^ (S' + 1) mod N + (o - 2 ^ (a' + 1))) by lia. rewrite Z.add_mod_idemp_l by lia.
      apply L_Fermat.divide_mod_eq; [exact NP|]. rewrite !Z.add_1_r, !Z.pow_succ_r by lia. replace (2 * 2 ^ S' + (o - 2 * 2 ^ a') - k) with (o + 2 * (2 ^ S' - 2 ^ a') - k) by lia. exact D. }
    change (2 ^ 256) with (2 * 2 ^ 255) in *. assert (R : forall x, (N | x - d) -> 0 <= x < N -> x = k).
    { intros x Dx Bx. rewrite <- (Z.mod_small x N), <- (Z.mod_small k N) by lia. apply L_Fermat.divide_mod_eq; [exact NP|]. replace (x - k) with (x - d + (d - k)) by lia. apply Z.divide_add_r; assumption. }
    assert (Bd : - (2 * 2 ^ 255) <= d <= N) by (unfold d; lia). clearbody d. apply R; unfold adj.
    - destruct (d <? 0) eqn:L1; [destruct (d + N <? 0) eqn:L2; [exists 2; lia|replace (d + N <? N) with true by lia; exists 1; lia]|].
      destruct (d <? N) eqn:L2; [rewrite L1, L2; exists 0; lia|]. replace (d - N <? 0) with false by lia. replace (d - N <? N) with true by lia. exists (-1). lia.
    - destruct (d <? 0) eqn:L1; [destruct (d + N <? 0) eqn:L2; [lia|replace (d + N <? N) with true by lia; lia]|].
      destruct (d <? N) eqn:L2; [rewrite L1, L2; lia|]. replace (d - N <? 0) with false by lia. replace (d - N <? N) with true by lia. lia. }
  destruct ((2 ^ (S' - 1072) <? N) && (2 ^ (S' - 1072) <? 2 ^ (S' + 1) mod N)) eqn:T.
  - exfalso. apply andb_prop in T. destruct T as [T1 T2]. apply Z.ltb_lt in T1, T2.
    assert (P1 : 2 ^ (a' + 1) <= 2 ^ (S' - 1073)) by (apply Z.pow_le_mono_r; lia).
    assert (P2 : 2 ^ (S' - 1072) = 2 * 2 ^ (S' - 1073)) by (rewrite <- Z.pow_succ_r by lia; f_equal; lia).
    assert (P3 : 2 ^ (a' + 1) = 2 * 2 ^ a') by (rewrite Z.add_1_r, Z.pow_succ_r by lia; reflexivity).
    assert (P4 : 2 ^ (S' + 1) = 2 * 2 ^ S') by (rewrite Z.add_1_r, Z.pow_succ_r by lia; reflexivity).
    assert (X : 2 ^ (S' + 1) mod N = k + 2 ^ (a' + 1) - o).
    { assert (0 < 2 ^ a') by (apply Z.pow_pos_nonneg; lia). rewrite <- (Z.mod_small (k + 2 ^ (a' + 1) - o) N) by lia. apply L_Fermat.divide_mod_eq; [lia|].
      replace (2 ^ (S' + 1) - (k + 2 ^ (a' + 1) - o)) with (o + 2 * (2 ^ S' - 2 ^ a') - k) by lia. exact D. }
    rewrite X in T2. lia.
  - rewrite forallb_forall in G'. assert (Ia : In a' (range 256)) by (apply in_range; lia). specialize (G' a' Ia). cbn beta in G'. rewrite forallb_forall in G'. specialize (G' o). cbn beta zeta in G'. rewrite C in G'.
    destruct (existsb (Z.eqb k) except) eqn:EX; [apply existsb_in, EX|]. exfalso.
    assert (Io : In o [0; 1]) by (cbn; lia). specialize (G' Io).
    assert (Od : Bool.eqb (Z.odd k) (o =? 1) = true). { unfold o. rewrite Zmod_odd. destruct (Z.odd k); reflexivity. }
    rewrite Od in G'. apply negb_true_iff in G'. unfold consistent in G'. rewrite F in G'.
    assert (Nn : S' - e - 1074 = Z.of_nat n) by lia. rewrite Nn in G'.
    assert (B : (Z.of_nat n =? 53) || (Z.of_nat n =? 54) = true). { apply orb_true_iff. rewrite !Z.eqb_eq. lia. }
    rewrite B in G'. rewrite !low_zero_spec in G' by lia. rewrite Z.shiftl_mul_pow2 in G' by lia.
    apply Z.eqb_neq in W1. fold a' in W1, W2. rewrite W1 in G'. apply orb_false_iff in G'. destruct G' as [G1 G2]. apply Z.eqb_neq in G1, G2. destruct W2 as [W2|W2]; [|tauto]. lia.
Qed.
Lemma r1_scan : scan 258 n256r1 [] 1074 (2 ^ 1075 mod n256r1) = true.
Proof. vm_cast_no_check (eq_refl true). Qed.
Definition lucky : Z := 0xd502f489393e64ea9918bfcd4e98a659c4d109cb110959a620f777d5e787baa6.
Lemma k1_scan : scan 258 n256k1 [lucky; lucky + 1] 1074 (2 ^ 1075 mod n256k1) = true.
Proof. vm_cast_no_check (eq_refl true). Qed.
