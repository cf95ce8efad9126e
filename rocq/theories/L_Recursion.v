(** * L_Recursion: Lame's bound; trees are shallow *)
From Coq Require Import Lia ZifyBool ZifyNat.
From Verif Require Import M_Py M_Hash M_UInt M_Float M_ECCurve M_Merkle M_Recursion S_Merkle S_Recursion L_Field L_FloatDiv L_Merkle L_Merkle2.

(** ** Euclid *)
Lemma euclid_fun a b n : euclid a b n -> forall m, euclid a b m -> m = n.
Proof.
  induction 1 as [b|a b n A E IH]; intros m M; inversion M; subst; try congruence. f_equal. apply IH. assumption.
Qed.
Lemma euclid_pos a b n : euclid a b n -> (1 <= n)%nat.
Proof. destruct 1; lia. Qed.
Lemma GCD_euclid f : forall a b, GCD_fuel f a b <> None -> exists n, euclid a b n.
Proof.
  induction f as [|f IH]; intros a b G; [cbn in G; congruence|]. cbn [GCD_fuel] in G. destruct (Z.eqb_spec a 0) as [->|A]; [exists 1%nat; constructor|].
  destruct (IH (b mod a) a) as (n & E). { intros X. rewrite X in G. congruence. } exists (S n). constructor; assumption.
Qed.
Lemma euclid_exists a b : exists n, euclid a b n.
Proof.
  destruct (GCD_Some a b) as (g & c & d & E). unfold GCD in E. apply (GCD_euclid (Z.to_nat (2 * bit_length a) + 2)). congruence.
Qed.
Lemma GCD_frames_fuel f : forall a b, GCD_frames f a b = match GCD_fuel f a b with Some r => Fits r | None => RecursionError end.
Proof.
  induction f as [|f IH]; intros a b; [reflexivity|]. cbn [GCD_frames GCD_fuel]. destruct (a =? 0); [reflexivity|]. rewrite IH.
  destruct (GCD_fuel f (b mod a) a) as [[[d x] y]|]; reflexivity.
Qed.
Lemma GCD_frames_enough a b n : euclid a b n -> forall f, (n <= f)%nat -> exists r, forall g, (n <= g)%nat -> GCD_frames g a b = Fits r.
Proof.
  induction 1 as [b|a b n A E IH]; intros f F.
  - exists (b, 0, 1). intros [|g] G; [lia|]. reflexivity.
  - destruct f as [|f]; [lia|]. destruct (IH f ltac:(lia)) as ([[d x] y] & R). eexists. intros [|g] G; [lia|]. cbn [GCD_frames].
    replace (a =? 0) with false by lia. rewrite (R g) by lia. reflexivity.
Qed.
Lemma GCD_frames_few a b n : euclid a b n -> forall f, (f < n)%nat -> GCD_frames f a b = RecursionError.
Proof.
  induction 1 as [b|a b n A E IH]; intros f F.
  - destruct f; [reflexivity|lia].
  - destruct f as [|f]; [reflexivity|]. cbn [GCD_frames]. replace (a =? 0) with false by lia. rewrite IH by lia. reflexivity.
Qed.
Lemma GCD_frames_ok a b n f : euclid a b n -> (n <= f)%nat -> exists r, GCD_frames f a b = Fits r /\ GCD a b = Some r.
Proof.
  intros E F. destruct (GCD_frames_enough _ _ _ E f F) as (r & R). exists r. split; [apply R, F|].
  unfold GCD. set (k := (Z.to_nat (2 * bit_length a) + 2)%nat). destruct (GCD_Some a b) as (g & c & d & G). unfold GCD in G. fold k in G.
  assert (K : (n <= k)%nat). { destruct (le_lt_dec n k) as [L|L]; [exact L|]. pose proof (GCD_frames_few _ _ _ E k L) as X. rewrite GCD_frames_fuel, G in X. discriminate. }
  pose proof (R k K) as X. rewrite GCD_frames_fuel, G in X. rewrite G. congruence.
Qed.

(** ** Fibonacci numbers *)
Lemma fibonacci_fun n a : fibonacci n a -> forall b, fibonacci n b -> b = a.
Proof.
  induction 1 as [| |n a b A IHa B IHb]; intros c C; inversion C; subst; try reflexivity.
  rewrite (IHa a0), (IHb b0) by assumption. reflexivity.
Qed.
Fixpoint fibs (n : nat) : Z * Z := match n with O => (0, 1) | S k => let '(a, b) := fibs k in (b, a + b) end.
Lemma fibs_ok n : fibonacci n (fst (fibs n)) /\ fibonacci (S n) (snd (fibs n)).
Proof.
  induction n as [|n [A B]]; [split; constructor|]. cbn [fibs]. destruct (fibs n) as [a b]. cbn [fst snd] in *. split; [exact B|]. constructor; assumption.
Qed.
Lemma fibs_snd n : snd (fibs n) = fst (fibs (S n)).
Proof. cbn [fibs]. destruct (fibs n). reflexivity. Qed.
Definition fib (n : nat) : Z := fst (fibs n).
Lemma fib_SS n : fib (S (S n)) = fib n + fib (S n).
Proof. unfold fib. rewrite <- (fibs_snd (S n)). cbn [fibs]. destruct (fibs n) as [a b]. reflexivity. Qed.
Lemma fib_is n : fibonacci n (fib n).
Proof. apply fibs_ok. Qed.
Lemma fib_eq n a : fibonacci n a -> a = fib n.
Proof. intros A. exact (fibonacci_fun _ _ (fib_is n) _ A). Qed.
Lemma fib_mono n : 0 <= fib n <= fib (S n).
Proof. induction n as [|n IH]; [unfold fib; cbn; lia|]. rewrite fib_SS. assert (0 <= fib n) by lia. lia. Qed.
Lemma fib_pos n : (1 <= n)%nat -> 1 <= fib n.
Proof. destruct n as [|n]; [lia|]. intros _. induction n as [|n IH]; [unfold fib; cbn; lia|]. rewrite fib_SS. pose proof (fib_mono n). lia. Qed.
Lemma fib_le m n : (m <= n)%nat -> fib m <= fib n.
Proof. induction 1 as [|n L IH]; [lia|]. pose proof (fib_mono n). lia. Qed.

(** Lame: n pairs need a number of at least the n-th Fibonacci number *)
Lemma mod_sum a b : b <> 0 -> Z.abs b < Z.abs a -> 0 <= a * b -> Z.abs b + Z.abs (a mod b) <= Z.abs a.
Proof.
  intros N L S. pose proof (Z.div_mod a b N) as D. pose proof (Z.mod_pos_bound a b). pose proof (Z.mod_neg_bound a b).
  assert (Q : 1 <= a / b).
  { destruct (Z.lt_ge_cases (a / b) 1) as [Q|Q]; [|exact Q]. exfalso. destruct (Z.lt_trichotomy b 0) as [B|[B|B]]; [|lia|].
    - assert (a <= 0) by nia. assert (b * (a / b) >= 0 \/ a / b >= 1) by nia. nia.
    - assert (0 <= a) by nia. nia. }
  destruct (Z.lt_trichotomy b 0) as [B|[B|B]]; [|lia|].
  - assert (a <= 0) by nia. assert (b * (a / b) <= b) by nia. lia.
  - assert (0 <= a) by nia. assert (b <= b * (a / b)) by nia. lia.
Qed.
Lemma mod_sign b a : a <> 0 -> Z.abs (b mod a) < Z.abs a /\ 0 <= a * (b mod a).
Proof.
  intros N. pose proof (Z.mod_pos_bound b a). pose proof (Z.mod_neg_bound b a). split; [lia|]. destruct (Z.lt_trichotomy a 0) as [B|[B|B]]; nia.
Qed.
Lemma lame n : forall a b m, (m <= n)%nat -> euclid a b m -> (2 <= m)%nat -> fib m <= Z.abs a.
Proof.
  induction n as [|n IH]; intros a b m M E L; [lia|].
  inversion E as [b0|a0 b0 k A E1]; subst; [lia|]. destruct (mod_sign b a A) as [Lt Sg].
  inversion E1 as [b1 E0|a1 b1 k1 A1 E2 Ea]; subst.
  - (* k = 1 *) unfold fib. cbn. lia.
  - inversion E2 as [b2 E0|a2 b2 k2 A2 E3]; subst.
    + change (fib 3) with 2. lia.
    + assert (X1 : fib (S (S k2)) <= Z.abs (b mod a)) by (apply (IH (b mod a) a (S (S k2))); [lia|assumption|lia]).
      assert (X2 : fib (S k2) <= Z.abs (a mod (b mod a))).
      { pose proof (euclid_pos _ _ _ E3). destruct (le_lt_dec 2 (S k2)) as [Q|Q]; [|lia].
        apply (IH (a mod (b mod a)) (b mod a) (S k2)); [lia| |exact Q]. constructor; assumption. }
      rewrite fib_SS. pose proof (mod_sum a (b mod a) A1 Lt ltac:(nia)). lia.
Qed.
(** consecutive Fibonacci numbers need exactly as many *)
Lemma fib_euclid n : (2 <= n)%nat -> euclid (fib n) (fib (S n)) n.
Proof.
  intros N. destruct n as [|[|n]]; [lia|lia|]. clear N. induction n as [|n IH].
  - change (fib 2) with 1. change (fib 3) with 2. constructor; [lia|]. change (2 mod 1) with 0. constructor.
  - constructor; [pose proof (fib_pos (S (S (S n))) ltac:(lia)); lia|].
    rewrite (fib_SS (S (S n))). replace ((fib (S (S n)) + fib (S (S (S n)))) mod fib (S (S (S n)))) with (fib (S (S n))); [exact IH|].
    pose proof (fib_pos (S n) ltac:(lia)). pose proof (fib_pos (S (S n)) ltac:(lia)).
    assert (fib (S (S (S n))) = fib (S n) + fib (S (S n))) as E3 by apply fib_SS.
    rewrite <- (Z.mul_1_l (fib (S (S (S n))))) at 1. rewrite Z.mod_add by lia. symmetry. apply Z.mod_small. lia.
Qed.
Lemma fib_370 : fib 370 < 2 ^ 256.
Proof. reflexivity. Qed.
Lemma fib_371 : 2 ^ 256 <= fib 371.
Proof. intros X. vm_compute in X. discriminate. Qed.
Lemma fib_1000 : 2 ^ 693 <= fib 1000.
Proof. intros X. vm_compute in X. discriminate. Qed.
Lemma fib_1001 : fib 1001 < 2 ^ 695.
Proof. vm_compute. reflexivity. Qed.
Lemma steps_below k bound a b n : bound <= fib (S k) -> (2 <= k)%nat -> Z.abs a < bound -> euclid a b n -> (n <= k)%nat.
Proof.
  intros B K A E. destruct (le_lt_dec n k) as [L|L]; [exact L|]. exfalso. pose proof (lame n a b n (le_n n) E ltac:(lia)). pose proof (fib_le (S k) n ltac:(lia)). lia.
Qed.

(** ** trees *)
Lemma build_frames_fits H : forall k fuel frames leaves h r, (length leaves <= 2 ^ k)%nat -> zlen leaves < 2 ^ 53 - 1 ->
  build fuel H leaves h = Some r -> ((if Nat.leb (length leaves) 1 then 1 else k + 3) <= frames)%nat ->
  build_frames frames H leaves h = Fits r.
Proof.
  induction k as [|k IH]; intros fuel frames leaves h r Lk Bd E F.
  - destruct frames as [|f]; [destruct (Nat.leb _ _); lia|]. destruct leaves as [|x [|y l]]; [| |cbn in Lk; lia]; destruct fuel; cbn in E |- *; congruence.
  - destruct frames as [|f]; [destruct (Nat.leb _ _); lia|].
    destruct leaves as [|x [|y rest]]; [destruct fuel; cbn in E |- *; congruence|destruct fuel; cbn in E |- *; congruence|].
    set (leaves := x :: y :: rest) in *. assert (L2 : (2 <= length leaves)%nat) by (cbn [leaves length]; lia).
    replace (Nat.leb (length leaves) 1) with false in F by lia. destruct fuel as [|fuel]; [discriminate|]. cbn [build] in E. cbn [build_frames]. unfold leaves in E at 1. unfold leaves at 1. cbv iota. fold leaves in E. fold leaves.
    unfold zlen in E at 1. unfold zlen at 1. rewrite int_div_2 in E |- * by (unfold zlen in *; lia). rewrite div2_Z in E |- *. set (np := Nat.div2 (S (length leaves))) in *.
    unfold need. replace (Nat.leb 3 f) with true by lia.
    unfold halloc, hbind, hret in E |- *. rewrite repeat_length in E |- *. destruct (hfor _ _ _) as [[u|e] h1]; [|congruence].
    assert (Hn : (np <= 2 ^ k)%nat). { pose proof (Nat.div2_odd (S (length leaves))) as D. fold np in D. rewrite Nat.pow_succ_r' in Lk. destruct (Nat.odd _); cbn [Nat.b2n] in D; lia. }
    pose proof (div2_smaller _ L2) as Bn. fold np in Bn.
    apply (IH fuel); [rewrite seq_length; exact Hn|unfold zlen in *; rewrite seq_length; lia|exact E|]. rewrite seq_length. destruct (Nat.leb np 1); lia.
Qed.
Lemma build_frames_few H : forall frames fuel k leaves h root h', (2 ^ k < length leaves)%nat -> zlen leaves < 2 ^ 53 - 1 ->
  build fuel H leaves h = Some (Ok root, h') -> (frames < k + 4)%nat -> build_frames frames H leaves h = RecursionError.
Proof.
  induction frames as [|f IH]; intros fuel k leaves h root h' Lk Bd E F; [reflexivity|].
  pose proof (Nat.pow_nonzero 2 k ltac:(lia)) as Pk.
  destruct leaves as [|x [|y rest]]; [cbn in Lk; lia|cbn in Lk; lia|].
  set (leaves := x :: y :: rest) in *. assert (L2 : (2 <= length leaves)%nat) by (cbn [leaves length]; lia).
  destruct fuel as [|fuel]; [discriminate|]. cbn [build] in E. cbn [build_frames]. unfold leaves in E at 1. unfold leaves at 1. cbv iota. fold leaves in E. fold leaves.
  unfold zlen in E at 1. unfold zlen at 1. rewrite int_div_2 in E |- * by (unfold zlen in *; lia). rewrite div2_Z in E |- *. set (np := Nat.div2 (S (length leaves))) in *.
  unfold need. destruct (Nat.leb_spec 3 f) as [L3|L3]; [|reflexivity].
  unfold halloc, hbind, hret in E |- *. rewrite repeat_length in E |- *. destruct (hfor _ _ _) as [[u|e] h1]; [|congruence].
  destruct k as [|k]; [lia|].
  pose proof (div2_smaller _ L2) as Bn. fold np in Bn.
  assert (Hn : (2 ^ k < np)%nat). { pose proof (Nat.div2_odd (S (length leaves))) as D. fold np in D. rewrite Nat.pow_succ_r' in Lk. destruct (Nat.odd _); cbn [Nat.b2n] in D; lia. }
  apply (IH fuel k _ _ root h'); [rewrite seq_length; exact Hn|unfold zlen in *; rewrite seq_length; lia|exact E|lia].
Qed.
Lemma dfs_frames_fits h d a L : subtree h d a L -> forall s f, (d + 2 <= f)%nat -> dfs_frames f h a s = Fits (Ok (fold_left set_add L s)).
Proof.
  induction 1; intros s f F.
  - destruct f as [|[|f]]; [lia|lia|]. cbn [dfs_frames]. rewrite H, H0. reflexivity.
  - destruct f as [|f]; [lia|]. cbn [dfs_frames]. rewrite H, H0, IHsubtree1 by lia. cbn [lbind]. rewrite IHsubtree2 by lia. rewrite fold_left_app. reflexivity.
Qed.
Lemma dfs_frames_few h d a L : subtree h d a L -> forall s f, (f < d + 2)%nat -> dfs_frames f h a s = RecursionError.
Proof.
  induction 1; intros s f F; (destruct f as [|f]; [reflexivity|]); cbn [dfs_frames]; rewrite H.
  - rewrite H0. unfold need. replace (Nat.leb 1 f) with false by lia. reflexivity.
  - rewrite IHsubtree1 by lia. reflexivity.
Qed.
Lemma trim_frames_fits : forall depth frames node index flags h r, (depth <= S frames)%nat -> (1 <= frames)%nat ->
  trim_node depth node index flags h = Some r -> trim_frames frames depth node index flags h = Fits r.
Proof.
  induction depth as [|depth IH]; intros frames node index flags h r D F E; [discriminate|]. destruct frames as [|f]; [lia|].
  destruct depth as [|[|depth]].
  - cbn [trim_node Nat.eqb] in E. cbn [trim_frames Nat.leb]. congruence.
  - rewrite trim_2 in E. cbn [trim_frames Nat.leb Nat.eqb]. destruct (n_LeftChild (deref h node)); [|congruence].
    change (do a0 <- flag_at flags (index * 2); if negb (b2z a0 =? 0) then Ok false else do b <- flag_at flags (index * 2 + 1); Ok (b2z b =? 0)) with (look flags (index * 2)).
    destruct (look flags (index * 2)) as [[|]|]; injection E as <-; reflexivity.
  - rewrite trim_3 in E. cbn [trim_frames Nat.leb Nat.eqb]. replace (S (S (S depth)) - 1)%nat with (S (S depth)) by lia.
    destruct (n_LeftChild (deref h node)) as [l|]; [|congruence].
    destruct (trim_node (S (S depth)) l (index * 2) flags h) as [[r1 h1]|] eqn:E1; [|discriminate]. rewrite (IH f l (index * 2) flags h _ ltac:(lia) ltac:(lia) E1). cbn [lbind].
    destruct r1 as [u|e]; [|congruence]. destruct (n_RightChild (deref h1 node)) as [rr|]; [|congruence].
    destruct (trim_node (S (S depth)) rr (index * 2) flags h1) as [[r2 h2]|] eqn:E2; [|discriminate]. rewrite (IH f rr (index * 2) flags h1 _ ltac:(lia) ltac:(lia) E2). cbn [lbind].
    destruct r2 as [u'|e]; [|congruence]. destruct (n_LeftChild (deref h2 node)) as [l2|]; [|congruence].
    destruct (n_LeftChild (deref h2 l2)); [congruence|]. destruct (n_RightChild (deref h2 node)) as [r3|]; [|congruence]. destruct (n_RightChild (deref h2 r3)); injection E as <-; reflexivity.
Qed.
Lemma trim_frames_few h lev d a : tall h lev d a -> forall f index flags, (f < Nat.max 1 d)%nat -> trim_frames f (S d) a index flags h = RecursionError.
Proof.
  induction 1 as [a Ll Lr|d a l r La Lh El Er Tl IHl Tr IHr]; intros f index flags F; [replace f with 0%nat by lia; reflexivity|].
  destruct f as [|f]; [reflexivity|]. destruct d as [|d]; [lia|].
  cbn [trim_frames Nat.leb Nat.eqb]. rewrite El. replace (S (S (S d)) - 1)%nat with (S (S d)) by lia. rewrite IHl by lia. reflexivity.
Qed.
