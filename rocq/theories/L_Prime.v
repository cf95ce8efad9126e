(** * L_Prime: the moduli of ECCurve.py are prime (Pocklington certificates, checked by
    computation in the kernel) *)
From Coq Require Import ZArith Znumtheory Zpow_facts Lia List.
From Verif Require Import L_Fermat M_ECCurve.
Import ListNotations.
Open Scope bool_scope.
Open Scope Z_scope.

Lemma powmod_pos_spec a e m : 0 < m -> powmod_pos a e m = a ^ Z.pos e mod m.
Proof.
  intros M. induction e as [e IH|e IH|]; cbn [powmod_pos].
  - rewrite IH. rewrite Pos2Z.inj_xI. rewrite Z.pow_add_r, Z.pow_1_r by lia. replace (2 * Z.pos e) with (Z.pos e + Z.pos e) by lia.
    rewrite Z.pow_add_r by lia. rewrite <- Zmult_mod. rewrite Zmult_mod_idemp_l. reflexivity.
  - rewrite IH. rewrite Pos2Z.inj_xO. replace (2 * Z.pos e) with (Z.pos e + Z.pos e) by lia.
    rewrite Z.pow_add_r by lia. rewrite <- Zmult_mod. reflexivity.
  - rewrite Z.pow_1_r. reflexivity.
Qed.
Lemma modpow_spec a e m : 0 < m -> 0 <= e -> modpow a e m = a ^ e mod m.
Proof.
  intros M E. destruct e as [|e|e]; [reflexivity|apply powmod_pos_spec, M|lia].
Qed.

(** trial division for the small primes *)
Fixpoint trial (k : nat) (d n : Z) : bool :=
  match k with
  | O => false
  | S k' => if n <? d * d then true else if n mod d =? 0 then false else trial k' (d + 1) n
  end.
Lemma trial_sound k : forall d n, 1 < d -> trial k d n = true -> forall e, d <= e -> e * e <= n -> ~ (e | n).
Proof.
  induction k as [|k IH]; intros d n D H e He Hn; [discriminate|]. cbn in H.
  destruct (n <? d * d) eqn:L; [apply Z.ltb_lt in L; nia|].
  destruct (n mod d =? 0) eqn:M; [discriminate|]. apply Z.eqb_neq in M.
  destruct (Z.eq_dec e d) as [->|Ne].
  - intros X. apply Z.mod_divide in X; [lia|lia].
  - apply (IH (d + 1) n); [lia|exact H|lia|exact Hn].
Qed.
Lemma trial_prime n : 1 < n -> trial 400 2 n = true -> prime n.
Proof.
  intros N T. destruct (prime_dec n) as [|NP]; [assumption|]. exfalso.
  apply not_prime_divide in NP; [|exact N]. destruct NP as (d & Hd & [e He]).
  assert (1 < e) by nia. destruct (Z.le_gt_cases d e).
  - apply (trial_sound _ 2 n ltac:(lia) T d); [lia|nia|exists e; exact He].
  - apply (trial_sound _ 2 n ltac:(lia) T e); [lia|nia|exists d; lia].
Qed.

(** one step of a certificate, as a computation; all the witnesses are the same base [a] *)
Definition cert_ok (N a : Z) (w : list Z) : bool :=
  (1 <? N) && (N <? prodl w * prodl w) && (modpow a (N - 1) N =? 1) &&
  forallb (fun q => (1 <? q) && ((N - 1) mod q =? 0) && (Z.gcd (modpow a ((N - 1) / q) N - 1) N =? 1)) w.
Lemma cert_prime N a w : NoDup w -> Forall prime w -> cert_ok N a w = true -> prime N.
Proof.
  intros ND P C. unfold cert_ok in C. apply andb_prop in C. destruct C as [C F]. apply andb_prop in C. destruct C as [C A]. apply andb_prop in C. destruct C as [C1 C2].
  apply Z.ltb_lt in C1, C2. apply Z.eqb_eq in A. rewrite modpow_spec in A by lia. rewrite forallb_forall in F.
  assert (MF : map fst (map (fun q => (q, a)) w) = w) by (rewrite map_map; apply map_id).
  apply (pocklington N (map (fun q => (q, a)) w)); rewrite ?MF; try assumption.
  rewrite Forall_forall in *. intros [q a'] I. apply in_map_iff in I. destruct I as (q' & E & I). injection E as -> <-. specialize (F _ I). specialize (P _ I). cbn [fst snd] in *.
  apply andb_prop in F. destruct F as [F G]. apply andb_prop in F. destruct F as [Q D].
  apply Z.ltb_lt in Q. apply Z.eqb_eq in D, G. rewrite modpow_spec in G by (try lia; apply Z.div_pos; lia).
  split; [exact P|]. split; [apply Z.mod_divide; [lia|exact D]|]. split; [exact A|].
  etransitivity; [|exact G]. rewrite (Z.gcd_comm (a ^ ((N - 1) / q) - 1) N), (Z.gcd_comm (a ^ ((N - 1) / q) mod N - 1) N).
  rewrite <- (Z.gcd_mod (a ^ ((N - 1) / q) - 1)) by lia. rewrite <- (Z.gcd_mod (a ^ ((N - 1) / q) mod N - 1)) by lia.
  rewrite Zminus_mod_idemp_l. reflexivity.
Qed.
Lemma pr_313 : prime 313. Proof. apply trial_prime; [lia|vm_compute; reflexivity]. Qed.
Lemma pr_5 : prime 5. Proof. apply trial_prime; [lia|vm_compute; reflexivity]. Qed.
Lemma pr_704251 : prime 704251.
Proof.
  apply (cert_prime _ 2 [313; 5]).
  - cbn. repeat constructor; cbn; intuition discriminate.
  - repeat apply Forall_cons; try apply Forall_nil; [exact pr_313|exact pr_5].
  - vm_compute; reflexivity.
Qed.
Lemma pr_78283 : prime 78283. Proof. apply trial_prime; [lia|vm_compute; reflexivity]. Qed.
Lemma pr_46076956964474543 : prime 46076956964474543.
Proof.
  apply (cert_prime _ 2 [704251; 78283]).
  - cbn. repeat constructor; cbn; intuition discriminate.
  - repeat apply Forall_cons; try apply Forall_nil; [exact pr_704251|exact pr_78283].
  - vm_compute; reflexivity.
Qed.
Lemma pr_3677 : prime 3677. Proof. apply trial_prime; [lia|vm_compute; reflexivity]. Qed.
Lemma pr_197 : prime 197. Proof. apply trial_prime; [lia|vm_compute; reflexivity]. Qed.
Lemma pr_66417393611 : prime 66417393611.
Proof.
  apply (cert_prime _ 2 [3677; 197]).
  - cbn. repeat constructor; cbn; intuition discriminate.
  - repeat apply Forall_cons; try apply Forall_nil; [exact pr_3677|exact pr_197].
  - vm_compute; reflexivity.
Qed.
Lemma pr_11290956913871 : prime 11290956913871.
Proof.
  apply (cert_prime _ 2 [66417393611]).
  - cbn. repeat constructor; cbn; intuition discriminate.
  - repeat apply Forall_cons; try apply Forall_nil; [exact pr_66417393611].
  - vm_compute; reflexivity.
Qed.
Lemma pr_774023187263532362759620327192479577272145303 : prime 774023187263532362759620327192479577272145303.
Proof.
  apply (cert_prime _ 2 [46076956964474543; 11290956913871]).
  - cbn. repeat constructor; cbn; intuition discriminate.
  - repeat apply Forall_cons; try apply Forall_nil; [exact pr_46076956964474543|exact pr_11290956913871].
  - vm_compute; reflexivity.
Qed.
Lemma pr_835945042244614951780389953367877943453916927241 : prime 835945042244614951780389953367877943453916927241.
Proof.
  apply (cert_prime _ 2 [774023187263532362759620327192479577272145303]).
  - cbn. repeat constructor; cbn; intuition discriminate.
  - repeat apply Forall_cons; try apply Forall_nil; [exact pr_774023187263532362759620327192479577272145303].
  - vm_compute; reflexivity.
Qed.
Lemma prime_p256 : prime p256.
Proof.
  apply (cert_prime _ 2 [835945042244614951780389953367877943453916927241]).
  - cbn. repeat constructor; cbn; intuition discriminate.
  - repeat apply Forall_cons; try apply Forall_nil; [exact pr_835945042244614951780389953367877943453916927241].
  - vm_compute; reflexivity.
Qed.
Lemma pr_53 : prime 53. Proof. apply trial_prime; [lia|vm_compute; reflexivity]. Qed.
Lemma pr_29 : prime 29. Proof. apply trial_prime; [lia|vm_compute; reflexivity]. Qed.
Lemma pr_7 : prime 7. Proof. apply trial_prime; [lia|vm_compute; reflexivity]. Qed.
Lemma pr_107590001 : prime 107590001.
Proof.
  apply (cert_prime _ 2 [53; 29; 7]).
  - cbn. repeat constructor; cbn; intuition discriminate.
  - repeat apply Forall_cons; try apply Forall_nil; [exact pr_53|exact pr_29|exact pr_7].
  - vm_compute; reflexivity.
Qed.
Lemma pr_20113 : prime 20113. Proof. apply trial_prime; [lia|vm_compute; reflexivity]. Qed.
Lemma pr_1206781 : prime 1206781.
Proof.
  apply (cert_prime _ 2 [20113]).
  - cbn. repeat constructor; cbn; intuition discriminate.
  - repeat apply Forall_cons; try apply Forall_nil; [exact pr_20113].
  - vm_compute; reflexivity.
Qed.
Lemma pr_7240687 : prime 7240687.
Proof.
  apply (cert_prime _ 2 [1206781]).
  - cbn. repeat constructor; cbn; intuition discriminate.
  - repeat apply Forall_cons; try apply Forall_nil; [exact pr_1206781].
  - vm_compute; reflexivity.
Qed.
Lemma pr_96557 : prime 96557. Proof. apply trial_prime; [lia|vm_compute; reflexivity]. Qed.
Lemma pr_255515944373312847190720520512484175977 : prime 255515944373312847190720520512484175977.
Proof.
  apply (cert_prime _ 2 [107590001; 7240687; 96557]).
  - cbn. repeat constructor; cbn; intuition discriminate.
  - repeat apply Forall_cons; try apply Forall_nil; [exact pr_107590001|exact pr_7240687|exact pr_96557].
  - vm_compute; reflexivity.
Qed.
Lemma pr_205115282021455665897114700593932402728804164701536103180137503955397371 : prime 205115282021455665897114700593932402728804164701536103180137503955397371.
Proof.
  apply (cert_prime _ 2 [255515944373312847190720520512484175977]).
  - cbn. repeat constructor; cbn; intuition discriminate.
  - repeat apply Forall_cons; try apply Forall_nil; [exact pr_255515944373312847190720520512484175977].
  - vm_compute; reflexivity.
Qed.
Lemma prime_p256k1 : prime (c_p secp256k1).
Proof.
  apply (cert_prime _ 2 [205115282021455665897114700593932402728804164701536103180137503955397371]).
  - cbn. repeat constructor; cbn; intuition discriminate.
  - repeat apply Forall_cons; try apply Forall_nil; [exact pr_205115282021455665897114700593932402728804164701536103180137503955397371].
  - vm_compute; reflexivity.
Qed.
Lemma pr_1871 : prime 1871. Proof. apply trial_prime; [lia|vm_compute; reflexivity]. Qed.
Lemma pr_1627771 : prime 1627771.
Proof.
  apply (cert_prime _ 2 [1871]).
  - cbn. repeat constructor; cbn; intuition discriminate.
  - repeat apply Forall_cons; try apply Forall_nil; [exact pr_1871].
  - vm_compute; reflexivity.
Qed.
Lemma pr_297159362677 : prime 297159362677.
Proof.
  apply (cert_prime _ 2 [1627771]).
  - cbn. repeat constructor; cbn; intuition discriminate.
  - repeat apply Forall_cons; try apply Forall_nil; [exact pr_1627771].
  - vm_compute; reflexivity.
Qed.
Lemma pr_28181 : prime 28181. Proof. apply trial_prime; [lia|vm_compute; reflexivity]. Qed.
Lemma pr_545358713 : prime 545358713.
Proof.
  apply (cert_prime _ 2 [28181]).
  - cbn. repeat constructor; cbn; intuition discriminate.
  - repeat apply Forall_cons; try apply Forall_nil; [exact pr_28181].
  - vm_compute; reflexivity.
Qed.
Lemma pr_29047611873442575647497758179 : prime 29047611873442575647497758179.
Proof.
  apply (cert_prime _ 2 [297159362677; 545358713]).
  - cbn. repeat constructor; cbn; intuition discriminate.
  - repeat apply Forall_cons; try apply Forall_nil; [exact pr_297159362677|exact pr_545358713].
  - vm_compute; reflexivity.
Qed.
Lemma pr_341948486974166000522343609283189 : prime 341948486974166000522343609283189.
Proof.
  apply (cert_prime _ 2 [29047611873442575647497758179]).
  - cbn. repeat constructor; cbn; intuition discriminate.
  - repeat apply Forall_cons; try apply Forall_nil; [exact pr_29047611873442575647497758179].
  - vm_compute; reflexivity.
Qed.
Lemma pr_9349 : prime 9349. Proof. apply trial_prime; [lia|vm_compute; reflexivity]. Qed.
Lemma pr_44706919 : prime 44706919.
Proof.
  apply (cert_prime _ 2 [9349]).
  - cbn. repeat constructor; cbn; intuition discriminate.
  - repeat apply Forall_cons; try apply Forall_nil; [exact pr_9349].
  - vm_compute; reflexivity.
Qed.
Lemma pr_113 : prime 113. Proof. apply trial_prime; [lia|vm_compute; reflexivity]. Qed.
Lemma pr_19 : prime 19. Proof. apply trial_prime; [lia|vm_compute; reflexivity]. Qed.
Lemma pr_120233 : prime 120233.
Proof.
  apply (cert_prime _ 2 [113; 19]).
  - cbn. repeat constructor; cbn; intuition discriminate.
  - repeat apply Forall_cons; try apply Forall_nil; [exact pr_113|exact pr_19].
  - vm_compute; reflexivity.
Qed.
Lemma pr_174723607534414371449 : prime 174723607534414371449.
Proof.
  apply (cert_prime _ 2 [44706919; 120233]).
  - cbn. repeat constructor; cbn; intuition discriminate.
  - repeat apply Forall_cons; try apply Forall_nil; [exact pr_44706919|exact pr_120233].
  - vm_compute; reflexivity.
Qed.
Lemma prime_n256k1 : prime n256k1.
Proof.
  apply (cert_prime _ 2 [341948486974166000522343609283189; 174723607534414371449]).
  - cbn. repeat constructor; cbn; intuition discriminate.
  - repeat apply Forall_cons; try apply Forall_nil; [exact pr_341948486974166000522343609283189|exact pr_174723607534414371449].
  - vm_compute; reflexivity.
Qed.
