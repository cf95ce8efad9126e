(** * P_Merkle2: C59, exactly which lists have the same Merkle root *)
From Coq Require Import ZArith Lia List Arith Zify ZifyNat.
From Verif Require Import M_Py M_Hash M_UInt M_Helper M_Merkle S_IO S_IO2 S_UInt S_Merkle L_Merkle L_Merkle2 P_Merkle.
Import ListNotations.
Open Scope Z_scope.

(** One repetition: the last 2^k elements are repeated, if the length is an odd multiple of 2^k and
    more than 2^k.  (k = 0 repeats the last element of a list of odd length.) *)
Inductive repetition {A} : list A -> list A -> Prop :=
| rep k j a b : length b = (2 ^ k)%nat -> length a = (2 ^ k * (2 * S j))%nat -> repetition (a ++ b) (a ++ b ++ b).
Inductive repetitions {A} : list A -> list A -> Prop :=
| reps_none l : repetitions l l
| reps_more l l' l'' : repetition l l' -> repetitions l' l'' -> repetitions l l''.
(** repeated until the length is a power of two *)
Definition filled {A} (l f : list A) : Prop := repetitions l f /\ exists d, length f = (2 ^ d)%nat.
(** the row of the tree k steps above the leaves *)
Inductive inner_row (H : hashes) : nat -> list uint -> list uint -> Prop :=
| ir_leaves l : inner_row H 0 l l
| ir_up k l l' l'' : (2 <= length l)%nat -> pair_up H l l' -> inner_row H k l' l'' -> inner_row H (S k) l l''.

Lemma pair_up_app H a a' b b' : pair_up H a a' -> Nat.even (length a) = true -> pair_up H b b' -> pair_up H (a ++ b) (a' ++ b').
Proof.
  intros P. revert b b'. induction P as [|a u D|x y l u l' D P IH]; intros b b' E Q; [exact Q|discriminate|].
  cbn [app]. constructor; [exact D|]. apply IH; [exact E|exact Q].
Qed.
Lemma pair_up_split H a b l' : pair_up H (a ++ b) l' -> Nat.even (length a) = true -> exists a' b', l' = a' ++ b' /\ pair_up H a a' /\ pair_up H b b'.
Proof.
  intros P E. assert (G : forall n a, (length a <= n)%nat -> Nat.even (length a) = true -> forall l', pair_up H (a ++ b) l' -> exists a' b', l' = a' ++ b' /\ pair_up H a a' /\ pair_up H b b').
  { clear. induction n as [|n IH]; intros [|x [|y a]] L E l' P; try discriminate E; try (cbn in L; lia); try (exists [], l'; split; [reflexivity|]; split; [constructor|exact P]).
    cbn [app] in P. inversion P as [| |? ? ? u l1 D P']; subst. destruct (IH a ltac:(cbn in L; lia) E _ P') as (a' & b' & -> & A & B). exists (u :: a'), b'. split; [reflexivity|]. split; [constructor; assumption|exact B]. }
  exact (G (length a) a (Nat.le_refl _) E l' P).
Qed.
Lemma double_even n m : n = (2 * m)%nat -> Nat.even n = true.
Proof. intros ->. apply Nat.even_spec. exists m. lia. Qed.
Lemma half_double n m : n = (2 * m)%nat -> Nat.div2 (S n) = m.
Proof. intros ->. rewrite Nat.div2_succ_double. reflexivity. Qed.
Lemma pow_S k : (2 ^ S k = 2 * 2 ^ k)%nat.
Proof. cbn [Nat.pow]. lia. Qed.
Lemma pow_pos k : (1 <= 2 ^ k)%nat.
Proof. induction k as [|k IH]; [cbn; lia|rewrite pow_S; lia]. Qed.
Lemma repetition_root H l l' r : repetition l l' -> merkle_root H l r -> merkle_root H l' r.
Proof.
  intros [k j a b Lb La]. revert a b r Lb La. induction k as [|k IH]; intros a b r Lb La M.
  - cbn in Lb, La. destruct b as [|x [|y b]]; try discriminate. cbn [app]. apply root_repeat; [apply (double_even _ (S j)); lia|intros ->; cbn in La; lia|exact M].
  - rewrite pow_S in *. assert (P1 := pow_pos k). inversion M as [u E|l0 l1 r0 L2 P M']; subst.
    { apply (f_equal (@length _)) in E. rewrite app_length in E. cbn [length] in E. lia. }
    assert (Ea : Nat.even (length a) = true) by (apply (double_even _ (2 ^ k * (2 * S j))); lia). assert (Eb : Nat.even (length b) = true) by (apply (double_even _ (2 ^ k)); lia).
    destruct (pair_up_split H a b l1 P Ea) as (a' & b' & -> & Pa & Pb). pose proof (pair_up_length H _ _ Pa) as Ka. pose proof (pair_up_length H _ _ Pb) as Kb.
    rewrite (half_double _ (2 ^ k * (2 * S j))) in Ka by lia. rewrite (half_double _ (2 ^ k)) in Kb by lia.
    apply (mr_up H _ (a' ++ b' ++ b')); [rewrite !app_length; lia| |apply IH; assumption].
    apply pair_up_app; [exact Pa|exact Ea|]. apply pair_up_app; assumption.
Qed.
Lemma repetitions_root H l l' r : repetitions l l' -> merkle_root H l r -> merkle_root H l' r.
Proof. induction 1; [auto|]. intros M. apply IHrepetitions. exact (repetition_root H l l' r H0 M). Qed.
Lemma repetition_forall {A} (P : A -> Prop) l l' : repetition l l' -> Forall P l -> Forall P l'.
Proof. intros [k j a b _ _] F. apply Forall_app in F as [Fa Fb]. repeat (apply Forall_app; split); assumption. Qed.
Lemma repetitions_forall {A} (P : A -> Prop) l l' : repetitions l l' -> Forall P l -> Forall P l'.
Proof. induction 1; [auto|]. intros F. apply IHrepetitions. exact (repetition_forall P l l' H F). Qed.
(** filling up to the next power of two *)
Lemma fill {A} d : forall i k (l : list A) q, (k + i = d)%nat -> length l = (2 ^ k * q)%nat -> (length l <= 2 ^ d)%nat -> (2 ^ d < 2 * length l)%nat -> exists f, repetitions l f /\ length f = (2 ^ d)%nat.
Proof.
  induction i as [|i IH]; intros k l q K L U V.
  - assert (k = d) as -> by lia. pose proof (pow_pos d). assert (q = 1)%nat as -> by nia. exists l. split; [constructor|lia].
  - destruct (Nat.Even_or_Odd q) as [[p ->]|[p ->]].
    + apply (IH (S k) l p); [lia|rewrite pow_S; lia|exact U|exact V].
    + assert (Pd : (2 ^ d = 2 ^ k * (2 * 2 ^ i))%nat) by (replace d with (k + S i)%nat by lia; rewrite Nat.pow_add_r, pow_S; reflexivity).
      pose proof (pow_pos k) as P1. pose proof (pow_pos i) as P2. destruct p as [|p]; [rewrite L, Pd in V; nia|].
      set (a := firstn (2 ^ k * (2 * S p)) l). set (b := skipn (2 ^ k * (2 * S p)) l). assert (E : l = a ++ b) by (symmetry; apply firstn_skipn).
      assert (La : length a = (2 ^ k * (2 * S p))%nat) by (unfold a; rewrite firstn_length; lia). assert (Lb : length b = (2 ^ k)%nat) by (unfold b; rewrite skipn_length; lia).
      assert (R : repetition l (a ++ b ++ b)) by (rewrite E at 1; apply (rep k p); assumption).
      destruct (IH (S k) (a ++ b ++ b) (S (S p))) as (f & F & Lf); [lia|rewrite !app_length, La, Lb, pow_S; lia| |rewrite !app_length; lia|].
      * rewrite !app_length, La, Lb, Pd. assert (2 * S p + 1 <= 2 * 2 ^ i)%nat by nia. nia.
      * exists f. split; [exact (reps_more l _ f R F)|exact Lf].
Qed.
Lemma fill_log {A} (l : list A) : l <> [] -> exists f, repetitions l f /\ length f = (2 ^ Nat.log2_up (length l))%nat.
Proof.
  intros N. destruct (Nat.eq_dec (length l) 1) as [E|N1]; [exists l; split; [constructor|rewrite E; reflexivity]|].
  assert (L : (1 < length l)%nat) by (destruct l; [congruence|cbn [length] in *; lia]). destruct (Nat.log2_up_spec _ L) as [A1 A2].
  apply (fill _ (Nat.log2_up (length l)) 0 l (length l)); [lia|cbn; lia|exact A2|].
  pose proof (Nat.log2_up_pos _ L) as P. destruct (Nat.log2_up (length l)) as [|d]; [lia|]. cbn [Nat.pred] in A1. rewrite pow_S. lia.
Qed.
Lemma inner_row_root H k l l' r : inner_row H k l l' -> (merkle_root H l r <-> merkle_root H l' r).
Proof.
  induction 1 as [|k l l' l'' L P I IH]; [tauto|]. rewrite <- IH. split; [|exact (mr_up H l l' r L P)].
  intros M. inversion M as [u E|l0 l1 r0 L2 P1 M']; subst; [cbn in L; lia|]. rewrite (pair_up_fun H l l' P l1 P1). exact M'.
Qed.
Lemma log_half n : (2 <= n)%nat -> S (Nat.log2_up (Nat.div2 (S n))) = Nat.log2_up n.
Proof.
  intros N. symmetry. pose proof (Nat.div2_odd (S n)) as D. set (m := Nat.div2 (S n)) in *. destruct (Nat.eq_dec m 1) as [E|M1].
  - rewrite E in *. assert (n = 2)%nat as -> by (destruct (Nat.odd (S n)); cbn [Nat.b2n] in D; lia). reflexivity.
  - assert (M : (1 < m)%nat) by (destruct (Nat.odd (S n)); cbn [Nat.b2n] in D; lia). destruct (Nat.log2_up_spec m M) as [A B]. pose proof (Nat.log2_up_pos m M) as P.
    apply Nat.log2_up_unique; [lia|]. cbn [Nat.pred]. destruct (Nat.log2_up m) as [|d]; [lia|]. cbn [Nat.pred] in A. rewrite !pow_S in *. destruct (Nat.odd (S n)); cbn [Nat.b2n] in D; lia.
Qed.
Lemma row_exists H : hash_ok H -> forall k l, (k <= Nat.log2_up (length l))%nat -> exists l', inner_row H k l l' /\ (Nat.log2_up (length l') + k = Nat.log2_up (length l))%nat.
Proof.
  intros O. induction k as [|k IH]; intros l K; [exists l; split; [constructor|lia]|].
  assert (L : (2 <= length l)%nat) by (destruct (length l) as [|[|n]]; [cbn in K; lia|cbn in K; lia|lia]).
  destruct (pair_up_exists H O l) as [l' P]. pose proof (pair_up_length H l l' P) as Q. pose proof (log_half (length l) L) as G. rewrite <- Q in G.
  destruct (IH l' ltac:(lia)) as (l'' & I & J). exists l''. split; [exact (ir_up H k l l' l'' L P I)|lia].
Qed.
Lemma inner_row_wf H k l l' : inner_row H k l l' -> Forall is_UInt256 l -> Forall is_UInt256 l'.
Proof. induction 1; [auto|]. intros _. apply IHinner_row. exact (pair_up_wf H _ _ H1). Qed.
Lemma root_nonempty H l r : merkle_root H l r -> l <> [].
Proof. intros M E. subst. inversion M; subst. cbn in *. lia. Qed.
Lemma same_root_le H l m r : hash_ok H -> Forall is_UInt256 l -> Forall is_UInt256 m -> merkle_root H l r -> merkle_root H m r -> (Nat.log2_up (length l) <= Nat.log2_up (length m))%nat ->
  collision H \/ exists k row f, inner_row H k m row /\ filled l f /\ filled row f.
Proof.
  intros O Wl Wm Ml Mm K. destruct (row_exists H O (Nat.log2_up (length m) - Nat.log2_up (length l)) m ltac:(lia)) as (row & I & J).
  pose proof (proj1 (inner_row_root H _ m row r I) Mm) as Mr. pose proof (inner_row_wf H _ _ _ I Wm) as Wr.
  destruct (fill_log l (root_nonempty _ _ _ Ml)) as (f & F & Lf). destruct (fill_log row (root_nonempty _ _ _ Mr)) as (g & G & Lg).
  pose proof (repetitions_root H l f r F Ml) as Mf. pose proof (repetitions_root H row g r G Mr) as Mg.
  destruct (root_binds H f r Mf g Mg) as [->|C]; [rewrite Lf, Lg; f_equal; lia|exact (repetitions_forall _ _ _ F Wl)|exact (repetitions_forall _ _ _ G Wr)| |left; exact C].
  right. eexists _, row, g. split; [exact I|]. split; [split; [exact F|eexists; exact Lf]|split; [exact G|eexists; exact Lg]].
Qed.
Lemma common_root H k l m row f r : inner_row H k m row -> filled l f -> filled row f -> hash_ok H -> l <> [] -> m <> [] ->
  (merkle_root H l r <-> merkle_root H m r).
Proof.
  intros I [F _] [G _] O Nl Nm. assert (T : forall x, x <> [] -> exists s, merkle_root H x s).
  { intros x N. assert (Q : forall n x, (length x <= n)%nat -> x <> [] -> exists s, merkle_root H x s); [|exact (Q (length x) x (Nat.le_refl _) N)].
    clear -O. induction n as [|n IH]; intros [|a [|b x]] L N; try congruence; try (cbn in L; lia); try (exists a; constructor).
    destruct (pair_up_exists H O (a :: b :: x)) as [l' P]. pose proof (pair_up_length H _ _ P) as Q.
    destruct (IH l') as [s M].
    - rewrite Q. cbn [length] in *. pose proof (Nat.div2_odd (S (S (S (length x))))) as D. destruct (Nat.odd _); cbn [Nat.b2n] in D; lia.
    - intros ->. cbn in Q. discriminate.
    - exists s. apply (mr_up H _ l'); [cbn; lia|exact P|exact M]. }
  rewrite (inner_row_root H k m row r I). destruct (T l Nl) as [s Ms].
  assert (Nr : row <> []) by (intros ->; destruct (T m Nm) as [t Mt]; apply (proj1 (inner_row_root H k m [] t I)) in Mt; exact (root_nonempty H [] t Mt eq_refl)).
  destruct (T row Nr) as [t Mt]. pose proof (merkle_root_fun H f s (repetitions_root H l f s F Ms) t (repetitions_root H row f t G Mt)) as E. subst t.
  split; intros M; [rewrite (merkle_root_fun H l r M s Ms); exact Mt|rewrite (merkle_root_fun H row r M s Mt); exact Ms].
Qed.

(** repeating the last 2^k hashes of a list whose length is a larger odd multiple of 2^k does not change the root *)
Theorem C59_repeated_block : forall H l l', hash_ok H -> l <> [] -> zlen l' < 2 ^ 53 - 1 -> repetition l l' -> ComputeRoot H l' = ComputeRoot H l /\ (length l < length l')%nat.
Proof.
  intros H l l' O N B R. assert (L : (length l < length l')%nat) by (destruct R as [k j a b Lb La]; rewrite !app_length; pose proof (pow_pos k); lia). split; [|exact L].
  destruct (C55_total H l O N) as (r & E & M & _); [unfold zlen in *; lia|]. rewrite E. apply C55_root; [exact O|intros ->; cbn in L; lia|exact B|]. exact (repetition_root H l l' r R M).
Qed.
Print Assumptions C59_repeated_block.
(** every list can be filled up, and its filling has 2^(Depth-1) elements *)
Theorem C59_filling : forall (l : list uint), l <> [] -> exists f, filled l f /\ length f = (2 ^ Nat.log2_up (length l))%nat.
Proof. intros l N. destruct (fill_log l N) as (f & F & L). exists f. split; [split; [exact F|eexists; exact L]|exact L]. Qed.
Print Assumptions C59_filling.
(** Apart from collisions of double SHA-256, two lists have the same root exactly when one of them and
    some row of the tree over the other one have the same filling. *)
Definition confusable (H : hashes) (l m : list uint) : Prop := exists k row f, inner_row H k m row /\ filled l f /\ filled row f.
Theorem C59_exact : forall H l m, hash_ok H -> l <> [] -> m <> [] -> zlen l < 2 ^ 53 - 1 -> zlen m < 2 ^ 53 - 1 -> Forall is_UInt256 l -> Forall is_UInt256 m ->
  (ComputeRoot H l = ComputeRoot H m -> confusable H l m \/ confusable H m l \/ collision H) /\
  (confusable H l m \/ confusable H m l -> ComputeRoot H l = ComputeRoot H m).
Proof.
  intros H l m O Nl Nm Bl Bm Wl Wm. destruct (C55_total H l O Nl Bl) as (r & El & Ml & _). destruct (C55_total H m O Nm Bm) as (s & Em & Mm & _). split.
  - intros E. assert (s = r) as -> by congruence. destruct (Nat.le_ge_cases (Nat.log2_up (length l)) (Nat.log2_up (length m))) as [K|K].
    + destruct (same_root_le H l m r O Wl Wm Ml Mm K) as [C|X]; [auto|left; exact X].
    + destruct (same_root_le H m l r O Wm Wl Mm Ml K) as [C|X]; [auto|right; left; exact X].
  - rewrite El. intros [(k & row & f & I & F & G)|(k & row & f & I & F & G)]; symmetry; apply C55_root; try assumption.
    + apply (common_root H k l m row f r I F G O Nl Nm). exact Ml.
    + apply (common_root H k m l row f r I F G O Nm Nl). exact Ml.
Qed.
Print Assumptions C59_exact.
(** six hashes and eight; three hashes and the row above their leaves *)
Definition six : list uint := [leaf x01; leaf x02; leaf x03; leaf x04; leaf x05; leaf x06].
Example C59_exact_example : repetition six (six ++ [leaf x05; leaf x06]) /\ filled six (six ++ [leaf x05; leaf x06]) /\
  ComputeRoot real_hashes six = ComputeRoot real_hashes (six ++ [leaf x05; leaf x06]) /\ confusable real_hashes six (six ++ [leaf x05; leaf x06]).
Proof.
  assert (R : repetition six (six ++ [leaf x05; leaf x06])) by exact (rep 1 0 [leaf x01; leaf x02; leaf x03; leaf x04] [leaf x05; leaf x06] eq_refl eq_refl).
  assert (F : filled six (six ++ [leaf x05; leaf x06])) by (split; [eapply reps_more; [exact R|constructor]|exists 3%nat; reflexivity]).
  split; [exact R|]. split; [exact F|]. split; [symmetry; apply C59_repeated_block; [exact real_hashes_ok|discriminate|reflexivity|exact R]|].
  exists 0%nat, (six ++ [leaf x05; leaf x06]), (six ++ [leaf x05; leaf x06]). split; [constructor|]. split; [exact F|]. split; [constructor|exists 3%nat; reflexivity].
Qed.
