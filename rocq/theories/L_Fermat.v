(** * L_Fermat: congruences, Fermat's little theorem, Pocklington's criterion on Z *)
From Coq Require Import ZArith Znumtheory Zpow_facts Lia List Permutation.
Import ListNotations.
Open Scope Z_scope.

Definition prodl (l : list Z) : Z := fold_right Z.mul 1 l.
Lemma prodl_perm l r : Permutation l r -> prodl l = prodl r.
Proof. induction 1 as [|x l r _ IH|x y l|]; unfold prodl in *; cbn [fold_right]; [reflexivity|rewrite IH; reflexivity|ring|congruence]. Qed.
Lemma prime_not_divide_prod p l : prime p -> Forall (fun x => ~ (p | x)) l -> ~ (p | prodl l).
Proof.
  intros Hp. induction 1 as [|x l Hx Hl IH]; cbn; intros D.
  - apply Z.divide_1_r_nonneg in D; [|destruct Hp; lia]. destruct Hp; lia.
  - apply prime_mult in D; [|exact Hp]. tauto.
Qed.

Lemma divide_mod_eq p a b : 0 < p -> (p | a - b) <-> a mod p = b mod p.
Proof.
  intros P. split; intros H.
  - apply Z.mod_divide in H; [|lia]. rewrite Zminus_mod in H. pose proof (Z.mod_pos_bound a p P). pose proof (Z.mod_pos_bound b p P).
    destruct (Z.lt_trichotomy (a mod p) (b mod p)) as [L|[E|L]]; [|exact E|].
    + rewrite <- (Z.mod_add _ 1) in H by lia. rewrite Z.mod_small in H by lia. lia.
    + rewrite Z.mod_small in H by lia. lia.
  - apply Z.mod_divide; [lia|]. rewrite Zminus_mod, H, Z.sub_diag. apply Z.mod_0_l. lia.
Qed.

Theorem fermat p a : prime p -> ~ (p | a) -> a ^ (p - 1) mod p = 1.
Proof.
  intros Hp Na. assert (P1 : 1 < p) by (destruct Hp; assumption).
  set (L := map Z.of_nat (seq 1 (Z.to_nat (p - 1)))).
  assert (InL : forall x, In x L <-> 0 < x < p).
  { intros x. unfold L. rewrite in_map_iff. split.
    - intros (n & <- & Hn). apply in_seq in Hn. lia.
    - intros Hx. exists (Z.to_nat x). split; [lia|]. apply in_seq. lia. }
  assert (NL : NoDup L).
  { unfold L. apply FinFun.Injective_map_NoDup; [intros x y; lia|apply seq_NoDup]. }
  set (M := map (fun x => (a * x) mod p) L).
  assert (Nx : forall x, 0 < x < p -> ~ (p | x)) by (intros x Hx D; apply Z.divide_pos_le in D; lia).
  assert (PM : Permutation M L).
  { apply NoDup_Permutation_bis.
    - unfold M. assert (G : forall l, incl l L -> NoDup l -> NoDup (map (fun x => (a * x) mod p) l)).
      { induction l as [|x l IH]; intros I N; cbn; [constructor|]. inversion N; subst. constructor; [|apply IH; [intros y Hy; apply I; right; exact Hy|assumption]].
        rewrite in_map_iff. intros (y & E & Hy). assert (0 < x < p) by (apply InL, I; left; reflexivity). assert (0 < y < p) by (apply InL, I; right; exact Hy).
        apply divide_mod_eq in E; [|lia]. replace (a * y - a * x) with (a * (y - x)) in E by ring. apply prime_mult in E; [|exact Hp]. destruct E as [E|E]; [tauto|].
        assert (y = x); [|subst; tauto]. destruct (Z.lt_trichotomy y x) as [T|[T|T]]; [|exact T|].
        - exfalso. apply (Nx (x - y)); [lia|]. replace (x - y) with (- (y - x)) by ring. apply Z.divide_opp_r. exact E.
        - exfalso. apply (Nx (y - x)); [lia|exact E]. }
      apply G; [apply incl_refl|exact NL].
    - unfold M. rewrite map_length. reflexivity.
    - intros y Hy. unfold M in Hy. apply in_map_iff in Hy. destruct Hy as (x & <- & Hx). apply InL in Hx. apply InL. pose proof (Z.mod_pos_bound (a * x) p ltac:(lia)).
      assert ((a * x) mod p <> 0); [|lia]. intros E. apply Z.mod_divide in E; [|lia]. apply prime_mult in E; [|exact Hp]. destruct E as [E|E]; [tauto|]. exact (Nx x Hx E). }
  apply prodl_perm in PM.
  assert (C : forall l, (p | prodl (map (fun x => (a * x) mod p) l) - a ^ Z.of_nat (length l) * prodl l)).
  { induction l as [|x l [k IH]]; [exists 0; reflexivity|]. cbn [map prodl fold_right length]. fold (prodl (map (fun x => (a * x) mod p) l)). fold (prodl l).
    rewrite Nat2Z.inj_succ, Z.pow_succ_r by lia.
    replace (prodl (map (fun x0 => (a * x0) mod p) l)) with (a ^ Z.of_nat (length l) * prodl l + k * p) by lia.
    pose proof (Z.div_mod (a * x) p ltac:(lia)) as D. exists ((a * x) mod p * k - (a * x / p) * (a ^ Z.of_nat (length l) * prodl l)). nia. }
  specialize (C L). fold M in C. rewrite PM in C. replace (length L) with (Z.to_nat (p - 1)) in C by (unfold L; rewrite map_length, seq_length; reflexivity).
  rewrite Z2Nat.id in C by lia. replace (prodl L - a ^ (p - 1) * prodl L) with (prodl L * (1 - a ^ (p - 1))) in C by ring.
  apply prime_mult in C; [|exact Hp]. destruct C as [C|C].
  - exfalso. revert C. apply prime_not_divide_prod; [exact Hp|]. apply Forall_forall. intros x Hx. apply Nx, InL, Hx.
  - symmetry. apply divide_mod_eq in C; [|lia]. rewrite Z.mod_1_l in C by lia. exact C.
Qed.

(** every integer above 1 has a prime divisor *)
Lemma prime_divisor n : 1 < n -> exists r, prime r /\ (r | n).
Proof.
  intros H. assert (G : forall m : nat, forall n, 1 < n < Z.of_nat m -> exists r, prime r /\ (r | n)).
  { induction m as [|m IH]; intros k Hk; [lia|]. destruct (prime_dec k) as [P|P]; [exists k; split; [exact P|apply Z.divide_refl]|].
    apply not_prime_divide in P; [|lia]. destruct P as (d & Hd & D). destruct (IH d ltac:(lia)) as (r & R & Dr). exists r. split; [exact R|]. eapply Z.divide_trans; eauto. }
  apply (G (Z.to_nat n + 1)%nat). lia.
Qed.
Lemma pow_mod_mul p a m k : 1 < p -> 0 <= m -> 0 <= k -> a ^ m mod p = 1 -> a ^ (m * k) mod p = 1.
Proof.
  intros P M K H. rewrite Z.pow_mul_r by lia. rewrite Zpower_mod by lia. rewrite H, Z.pow_1_l by lia. apply Z.mod_1_l. lia.
Qed.

(** Pocklington for one prime q dividing N - 1: every prime factor r of N has q | r - 1 *)
Lemma pocklington_step N q a r : 1 < N -> prime q -> (q | N - 1) -> a ^ (N - 1) mod N = 1 -> Z.gcd (a ^ ((N - 1) / q) - 1) N = 1 ->
  prime r -> (r | N) -> (q | r - 1).
Proof.
  intros N1 Hq D A G Hr Dr. assert (R1 : 1 < r) by (destruct Hr; assumption). assert (Q1 : 1 < q) by (destruct Hq; assumption).
  destruct D as [m E]. assert (M0 : 0 <= m) by nia. rewrite E, Z.div_mul in G by lia.
  assert (Ar : a ^ (N - 1) mod r = 1).
  { assert (X : (N | a ^ (N - 1) - 1)) by (apply divide_mod_eq; [lia|]; rewrite A, Z.mod_1_l; lia).
    assert (Y : (r | a ^ (N - 1) - 1)) by (eapply Z.divide_trans; eauto). apply divide_mod_eq in Y; [|lia]. rewrite Y. apply Z.mod_1_l. lia. }
  assert (Na : ~ (r | a)).
  { intros X. assert (Y : (r | a ^ (N - 1))). { replace (N - 1) with (Z.succ (N - 2)) by lia. rewrite Z.pow_succ_r by lia. apply Z.divide_mul_l, X. }
    apply Z.mod_divide in Y; lia. }
  pose proof (fermat r a Hr Na) as F.
  destruct (Zdivide_dec q (r - 1)) as [|Nq]; [assumption|]. exfalso.
  (* Bezout: u q + v (r-1) = 1, hence a^m = (a^m)^(uq + v(r-1)) = 1 mod r *)
  assert (RP : rel_prime q (r - 1)) by (apply prime_rel_prime; assumption).
  destruct (rel_prime_bezout _ _ RP) as [u v UV].
  assert (Am : a ^ m mod r = 1).
  { (* a nonnegative representative t of u: t q = 1 + k (r-1) *)
    set (t := u mod (r - 1) + (r - 1)). pose proof (Z.mod_pos_bound u (r - 1) ltac:(lia)) as Bt. pose proof (Z.div_mod u (r - 1) ltac:(lia)) as Du.
    set (k := q * (1 - u / (r - 1)) - v). assert (K : t * q = 1 + k * (r - 1)) by (unfold t, k; nia).
    assert (K0 : 0 <= k) by nia.
    assert (L : a ^ (m * q * t) mod r = 1) by (apply pow_mod_mul; [lia|nia|lia|rewrite <- E; exact Ar]).
    replace (m * q * t) with (m + (r - 1) * (m * k)) in L by nia. rewrite Z.pow_add_r in L by nia.
    rewrite Zmult_mod, (pow_mod_mul r a (r - 1) (m * k)), Z.mul_1_r, Z.mod_mod in L by (try exact F; nia). exact L. }
  assert (X : (r | a ^ m - 1)) by (apply divide_mod_eq; [lia|]; rewrite Am, Z.mod_1_l; lia).
  assert (Y : (r | 1)) by (rewrite <- G; apply Z.gcd_greatest; assumption). apply Z.divide_1_r_nonneg in Y; lia.
Qed.

(** N is prime if N - 1 is divisible by distinct primes whose product exceeds the square
    root of N, each with a witness *)
Lemma distinct_primes_divide l n : Forall prime l -> NoDup l -> Forall (fun q => (q | n)) l -> (prodl l | n).
Proof.
  induction l as [|q l IH]; intros P N D; cbn; [apply Z.divide_1_l|].
  inversion P as [|? ? Pq Pl]; subst. inversion N as [|? ? Nq Nl]; subst. inversion D as [|? ? Dq Dl]; subst.
  destruct (IH Pl Nl Dl) as [k ->]. apply prime_mult in Dq; [|exact Pq]. destruct Dq as [[j ->]|X].
  - exists j. unfold prodl. ring.
  - exfalso. revert X. apply prime_not_divide_prod; [exact Pq|]. apply Forall_forall. intros x Hx Dx.
    rewrite Forall_forall in Pl. specialize (Pl x Hx). apply prime_div_prime in Dx; [|exact Pq|exact Pl]. subst. tauto.
Qed.
Theorem pocklington N (w : list (Z * Z)) : 1 < N -> NoDup (map fst w) -> Forall (fun qa => prime (fst qa) /\ (fst qa | N - 1) /\
    snd qa ^ (N - 1) mod N = 1 /\ Z.gcd (snd qa ^ ((N - 1) / fst qa) - 1) N = 1) w ->
  N < prodl (map fst w) * prodl (map fst w) -> prime N.
Proof.
  intros N1 ND W Big. destruct (prime_dec N) as [|NP]; [assumption|]. exfalso.
  assert (Small : exists r, prime r /\ (r | N) /\ r * r <= N).
  { apply not_prime_divide in NP; [|lia]. destruct NP as (d & Hd & [e He]).
    assert (E : 1 < e) by nia. destruct (Z.le_gt_cases d e) as [L|L].
    - destruct (prime_divisor d ltac:(lia)) as (r & R & Dr). exists r. split; [exact R|]. split; [eapply Z.divide_trans; [exact Dr|exists e; exact He]|].
      apply Z.divide_pos_le in Dr; [|lia]. destruct R. nia.
    - destruct (prime_divisor e ltac:(lia)) as (r & R & Dr). exists r. split; [exact R|]. split; [eapply Z.divide_trans; [exact Dr|exists d; lia]|].
      apply Z.divide_pos_le in Dr; [|lia]. destruct R. nia. }
  destruct Small as (r & R & Dr & Sq). assert (R1 : 1 < r) by (destruct R; assumption).
  assert (D : (prodl (map fst w) | r - 1)).
  { apply distinct_primes_divide; [|exact ND|].
    - apply Forall_map. eapply Forall_impl; [|exact W]. cbn. tauto.
    - apply Forall_map. eapply Forall_impl; [|exact W]. cbn. intros [q a] (P & D & A & G). cbn [fst snd] in *. exact (pocklington_step N q a r N1 P D A G R Dr). }
  apply Z.divide_pos_le in D; [|lia].
  assert (0 < prodl (map fst w)). { clear -W. induction W as [|x l Hx Hl IH]; cbn; [lia|]. destruct Hx as [P _]. assert (1 < fst x) by (destruct P; assumption). fold (prodl (map fst l)). apply Z.mul_pos_pos; [lia|exact IH]. }
  nia.
Qed.
