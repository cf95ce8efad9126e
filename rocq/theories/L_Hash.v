(** * L_Hash: the hash functions of M_Hash are those of S_Hash *)
From Coq Require Import Lia Bool Arith Znumtheory ZifyBool ZifyNat.
From Verif Require Import M_Py M_Hash S_IO S_Hash L_Bytes L_IO L_VarInt L_Prime.
From Coq Require Import List ZArith.
Import ListNotations.
Open Scope Z_scope.

(** ** words *)
Definition wd (x : Z) : Prop := 0 <= x < 2 ^ 32.
Lemma bit_testbit x i : bit x i = Z.testbit x (Z.of_nat i).
Proof. unfold bit. rewrite Z.testbit_odd, Z.shiftr_div_pow2 by lia. reflexivity. Qed.
Definition word_n (n : nat) (f : nat -> bool) : Z := fold_right (fun i n => (if f i then 2 ^ Z.of_nat i else 0) + n) 0 (seq 0 n).
Lemma fold_init (f : nat -> Z) l a : fold_right (fun i n => f i + n) a l = fold_right (fun i n => f i + n) 0 l + a.
Proof. induction l as [|x l IH]; cbn; lia. Qed.
Lemma word_n_S n f : word_n (S n) f = word_n n f + (if f n then 2 ^ Z.of_nat n else 0).
Proof.
  unfold word_n. rewrite seq_S, fold_right_app. cbn [fold_right plus]. rewrite (fold_init (fun i => if f i then 2 ^ Z.of_nat i else 0)). lia.
Qed.
Lemma word_n_spec f n : 0 <= word_n n f < 2 ^ Z.of_nat n /\ forall i, (i < n)%nat -> Z.testbit (word_n n f) (Z.of_nat i) = f i.
Proof.
  induction n as [|n [IH1 IH2]]; [split; [cbn; lia|lia]|]. rewrite word_n_S. replace (2 ^ Z.of_nat (S n)) with (2 * 2 ^ Z.of_nat n) by (rewrite Nat2Z.inj_succ, Z.pow_succ_r by lia; reflexivity).
  assert (P : 0 < 2 ^ Z.of_nat n) by (apply Z.pow_pos_nonneg; lia). split; [destruct (f n); lia|]. intros i Hi. destruct (Nat.eq_dec i n) as [->|Ne].
  - rewrite Z.testbit_odd, Z.shiftr_div_pow2 by lia. destruct (f n).
    + replace (word_n n f + 2 ^ Z.of_nat n) with (word_n n f + 1 * 2 ^ Z.of_nat n) by ring. rewrite Z.div_add, Z.div_small by lia. reflexivity.
    + rewrite Z.add_0_r, Z.div_small by lia. reflexivity.
  - rewrite <- (IH2 i) by lia. rewrite <- (Z.mod_pow2_bits_low (word_n n f + _) (Z.of_nat n)) by lia. f_equal. destruct (f n).
    + replace (word_n n f + 2 ^ Z.of_nat n) with (word_n n f + 1 * 2 ^ Z.of_nat n) by ring. rewrite Z.mod_add by lia. apply Z.mod_small. exact IH1.
    + rewrite Z.add_0_r. apply Z.mod_small. exact IH1.
Qed.
Lemma word_of_wd f : wd (word_of f).
Proof. exact (proj1 (word_n_spec f 32)). Qed.
Lemma bits_eq x y : wd x -> wd y -> (forall i, (i < 32)%nat -> Z.testbit x (Z.of_nat i) = Z.testbit y (Z.of_nat i)) -> x = y.
Proof.
  intros X Y H. unfold wd in *. apply Z.bits_inj'. intros i Hi. destruct (Z.lt_ge_cases i 32) as [L|L].
  - specialize (H (Z.to_nat i) ltac:(lia)). rewrite Z2Nat.id in H by lia. exact H.
  - rewrite <- (Z.mod_small x (2 ^ 32)), <- (Z.mod_small y (2 ^ 32)) by lia. rewrite !Z.mod_pow2_bits_high by lia. reflexivity.
Qed.
Lemma word_eq x f : wd x -> (forall i, (i < 32)%nat -> Z.testbit x (Z.of_nat i) = f i) -> x = word_of f.
Proof. intros X H. apply bits_eq; [exact X|apply word_of_wd|]. intros i Hi. rewrite H by exact Hi. symmetry. exact (proj2 (word_n_spec f 32) i Hi). Qed.
Lemma high_bit x n : wd x -> 32 <= n -> Z.testbit x n = false.
Proof. intros X N. unfold wd in X. rewrite <- (Z.mod_small x (2 ^ 32)) by lia. apply Z.mod_pow2_bits_high. lia. Qed.
Lemma wd_bits x : 0 <= x -> (forall n, 32 <= n -> Z.testbit x n = false) -> wd x.
Proof.
  intros N H. replace x with (x mod 2 ^ 32); [apply Z.mod_pos_bound; reflexivity|]. apply Z.bits_inj'. intros i Hi. destruct (Z.lt_ge_cases i 32) as [L|L].
  - apply Z.mod_pow2_bits_low. exact L.
  - rewrite Z.mod_pow2_bits_high, H by lia. reflexivity.
Qed.
Lemma m32_bit n : 0 <= n < 32 -> Z.testbit m32 n = true.
Proof. intros H. change m32 with (Z.ones 32). apply Z.ones_spec_low. lia. Qed.
Lemma m32_high n : 32 <= n -> Z.testbit m32 n = false.
Proof. intros H. change m32 with (Z.ones 32). apply Z.ones_spec_high. lia. Qed.
Lemma m32_wd : wd m32.
Proof. unfold wd, m32. lia. Qed.
Lemma lxor_wd a b : wd a -> wd b -> wd (Z.lxor a b).
Proof. intros A B. apply wd_bits; [apply Z.lxor_nonneg; unfold wd in *; lia|]. intros n N. rewrite Z.lxor_spec, !high_bit by assumption. reflexivity. Qed.
Lemma land_wd a b : wd a -> wd b -> wd (Z.land a b).
Proof. intros A B. apply wd_bits; [apply Z.land_nonneg; unfold wd in *; lia|]. intros n N. rewrite Z.land_spec, !high_bit by assumption. reflexivity. Qed.
Lemma lor_wd a b : wd a -> wd b -> wd (Z.lor a b).
Proof. intros A B. apply wd_bits; [apply Z.lor_nonneg; unfold wd in *; lia|]. intros n N. rewrite Z.lor_spec, !high_bit by assumption. reflexivity. Qed.
Lemma not32_wd a : wd a -> wd (not32 a).
Proof. intros A. apply lxor_wd; [exact A|exact m32_wd]. Qed.
Lemma not32_bit a i : (i < 32)%nat -> Z.testbit (not32 a) (Z.of_nat i) = negb (bit a i).
Proof. intros H. unfold not32. rewrite Z.lxor_spec, m32_bit, bit_testbit by lia. destruct (Z.testbit a (Z.of_nat i)); reflexivity. Qed.
Lemma shiftr_wd a n : 0 <= n -> wd a -> wd (Z.shiftr a n).
Proof. intros N A. apply wd_bits; [apply Z.shiftr_nonneg; unfold wd in A; lia|]. intros k K. rewrite Z.shiftr_spec by lia. apply high_bit; [exact A|lia]. Qed.
Lemma shr_eq n x : wd x -> Z.shiftr x (Z.of_nat n) = move_right n x.
Proof.
  intros X. apply word_eq; [apply shiftr_wd; [lia|exact X]|]. intros i Hi. rewrite Z.shiftr_spec, bit_testbit, Nat2Z.inj_add by lia.
  destruct (Nat.ltb_spec (i + n) 32) as [L|L]; [reflexivity|]. apply high_bit; [exact X|lia].
Qed.
Lemma rotl_wd n x : 0 <= n <= 32 -> wd x -> wd (rotl n x).
Proof. intros N X. unfold rotl. apply lor_wd; [|apply shiftr_wd; [lia|exact X]]. apply wd_bits; [apply Z.land_nonneg; right; apply m32_wd|]. intros k K. rewrite Z.land_spec, m32_high by lia. apply andb_false_r. Qed.
Lemma rotl_eq n x : (0 < n < 32)%nat -> wd x -> rotl (Z.of_nat n) x = turn_left n x.
Proof.
  intros N X. apply word_eq; [apply rotl_wd; [lia|exact X]|]. intros i Hi. unfold rotl.
  rewrite Z.lor_spec, Z.land_spec, m32_bit, andb_true_r, Z.shiftl_spec, Z.shiftr_spec, bit_testbit by lia.
  destruct (Nat.lt_ge_cases i n) as [L|L].
  - rewrite Z.testbit_neg_r by lia. cbn [orb]. rewrite Nat.mod_small by lia. f_equal. lia.
  - rewrite (high_bit x (Z.of_nat i + _)) by (exact X || lia). rewrite orb_false_r. replace (i + (32 - n))%nat with (i - n + 1 * 32)%nat by lia. rewrite Nat.mod_add, Nat.mod_small by lia. f_equal. lia.
Qed.
Lemma rotr_eq n x : (0 < n < 32)%nat -> wd x -> rotr (Z.of_nat n) x = turn_right n x.
Proof.
  intros N X. unfold rotr. replace (32 - Z.of_nat n) with (Z.of_nat (32 - n)) by lia. rewrite rotl_eq by (lia || exact X). unfold turn_left, turn_right.
  replace (32 - (32 - n))%nat with n by lia. reflexivity.
Qed.
Lemma turn_left_wd n x : wd (turn_left n x). Proof. apply word_of_wd. Qed.
Lemma xor3_eq a b c : wd a -> wd b -> wd c -> Z.lxor (Z.lxor a b) c = xor3 a b c.
Proof. intros A B C. apply word_eq; [repeat apply lxor_wd; assumption|]. intros i Hi. rewrite !Z.lxor_spec, !bit_testbit. reflexivity. Qed.
Lemma ch_eq x y z : wd x -> wd y -> wd z -> Z.lxor (Z.land x y) (Z.land (not32 x) z) = choose x y z.
Proof.
  intros A B C. apply word_eq; [apply lxor_wd; apply land_wd; try apply not32_wd; assumption|]. intros i Hi.
  rewrite Z.lxor_spec, !Z.land_spec, not32_bit, !bit_testbit by exact Hi. destruct (Z.testbit x _), (Z.testbit y _), (Z.testbit z _); reflexivity.
Qed.
Lemma maj_eq x y z : wd x -> wd y -> wd z -> Z.lxor (Z.lxor (Z.land x y) (Z.land x z)) (Z.land y z) = majority x y z.
Proof.
  intros A B C. apply word_eq; [repeat apply lxor_wd; apply land_wd; assumption|]. intros i Hi.
  rewrite !Z.lxor_spec, !Z.land_spec, !bit_testbit. destruct (Z.testbit x _), (Z.testbit y _), (Z.testbit z _); reflexivity.
Qed.
Lemma rmd_f_eq r x y z : wd x -> wd y -> wd z -> rmd_f r x y z = rmd_function r x y z.
Proof.
  intros A B C. destruct r as [|[|[|[|r]]]]; cbn [rmd_f rmd_function].
  - apply xor3_eq; assumption.
  - apply word_eq; [apply lor_wd; apply land_wd; try apply not32_wd; assumption|]. intros i Hi.
    rewrite Z.lor_spec, !Z.land_spec, not32_bit, !bit_testbit by exact Hi. destruct (Z.testbit x _), (Z.testbit y _), (Z.testbit z _); reflexivity.
  - apply word_eq; [apply lxor_wd; [apply lor_wd; [|apply not32_wd]|]; assumption|]. intros i Hi.
    rewrite Z.lxor_spec, Z.lor_spec, not32_bit, !bit_testbit by exact Hi. reflexivity.
  - apply word_eq; [apply lor_wd; apply land_wd; try apply not32_wd; assumption|]. intros i Hi.
    rewrite Z.lor_spec, !Z.land_spec, not32_bit, !bit_testbit by exact Hi. destruct (Z.testbit x _), (Z.testbit y _), (Z.testbit z _); reflexivity.
  - apply word_eq; [apply lxor_wd; [|apply lor_wd; [|apply not32_wd]]; assumption|]. intros i Hi.
    rewrite Z.lxor_spec, Z.lor_spec, not32_bit, !bit_testbit by exact Hi. reflexivity.
Qed.
Lemma rmd_function_wd r x y z : wd (rmd_function r x y z).
Proof. destruct r as [|[|[|[|r]]]]; apply word_of_wd. Qed.
Lemma add32_mod a b : add32 a b = (a + b) mod 2 ^ 32.
Proof. unfold add32, m32. change 4294967295 with (Z.ones 32). apply Z.land_ones. lia. Qed.
Lemma sum32_wd l : wd (sum32 l).
Proof. apply Z.mod_pos_bound. reflexivity. Qed.
Lemma add32_wd a b : wd (add32 a b).
Proof. rewrite add32_mod. apply Z.mod_pos_bound. reflexivity. Qed.
Ltac sums := unfold sum32; cbn [fold_right]; rewrite !add32_mod; rewrite ?Zplus_mod_idemp_l, ?Zplus_mod_idemp_r; f_equal; ring.
Lemma add2 a b : add32 a b = sum32 [a; b]. Proof. sums. Qed.
Lemma add3 a b c : add32 a (add32 b c) = sum32 [a; b; c]. Proof. sums. Qed.
Lemma add4 a b c d : add32 (add32 a b) (add32 c d) = sum32 [a; b; c; d]. Proof. sums. Qed.
Lemma add5 a b c d e : add32 (add32 a b) (add32 c (add32 d e)) = sum32 [a; b; c; d; e]. Proof. rewrite (add3 c d e). sums. Qed.

(** ** lists *)
Lemma fold_firstn {A B} (f : A -> B -> A) l s t d : (t < length l)%nat -> fold_left f (firstn (S t) l) s = f (fold_left f (firstn t l) s) (nth t l d).
Proof.
  revert s t. induction l as [|x l IH]; intros s t H; [cbn in H; lia|]. destruct t as [|t]; [reflexivity|]. cbn [length] in H.
  change (firstn (S (S t)) (x :: l)) with (x :: firstn (S t) l). change (firstn (S t) (x :: l)) with (x :: firstn t l). cbn [fold_left nth]. apply IH. lia.
Qed.
Lemma fold_firstn_all {A B} (f : A -> B -> A) l s n : length l = n -> fold_left f (firstn n l) s = fold_left f l s.
Proof. intros <-. rewrite firstn_all. reflexivity. Qed.
Lemma skipn_add {A} (l : list A) a b : skipn a (skipn b l) = skipn (a + b) l.
Proof.
  revert l. induction b as [|b IH]; intros l; [rewrite Nat.add_0_r; reflexivity|]. destruct l as [|x l]; [rewrite !skipn_nil; reflexivity|]. rewrite Nat.add_succ_r. cbn [skipn]. apply IH.
Qed.
Lemma blocks_length {A} n fuel : forall m (l : list A), (0 < n)%nat -> length l = (n * m)%nat -> (m <= fuel)%nat -> length (blocks_of n fuel l) = m.
Proof.
  induction fuel as [|k IH]; intros m l N L F; [assert (m = 0)%nat as -> by lia; reflexivity|]. cbn [blocks_of]. destruct l as [|x l].
  - cbn [length] in L. assert (m = 0)%nat as -> by nia. reflexivity.
  - destruct m as [|m]; [cbn [length] in L; lia|]. cbn [length]. f_equal. apply IH; [exact N|rewrite skipn_length, L; lia|lia].
Qed.
Lemma blocks_nth {A} n fuel : forall m (l : list A) i d, (0 < n)%nat -> length l = (n * m)%nat -> (m <= fuel)%nat -> (i < m)%nat ->
  nth i (blocks_of n fuel l) d = firstn n (skipn (n * i) l).
Proof.
  induction fuel as [|k IH]; intros m l i d N L F I; [lia|]. cbn [blocks_of]. destruct l as [|x l]; [cbn [length] in L; nia|].
  destruct m as [|m]; [lia|]. destruct i as [|i]; [rewrite Nat.mul_0_r; reflexivity|]. cbn [nth]. rewrite (IH m) by (try rewrite skipn_length, L; lia).
  rewrite skipn_add. do 2 f_equal. lia.
Qed.

Lemma num_wd e b : length b = 4%nat -> wd (num e b).
Proof.
  intros L. rewrite num_eq. unfold bytes2z. destruct (le2z_bound (order_bytes e b)) as [A B]. split; [exact A|].
  assert (zlen (order_bytes e b) = 4) as E by (unfold zlen; destruct e; cbn [order_bytes]; rewrite ?rev_length; lia). rewrite E in B. exact B.
Qed.
Lemma words_length e b : length b = 64%nat -> length (words e b) = 16%nat.
Proof. intros L. unfold words. rewrite map_length. apply (blocks_length 4 _ 16); lia. Qed.
(** word t of block i *)
Lemma words_nth e p n i t : length p = (64 * n)%nat -> (i < n)%nat -> (t < 16)%nat ->
  nth t (words e (firstn 64 (skipn (64 * i) p))) 0 = block_word e p i t.
Proof.
  intros L I T. assert (Lb : length (firstn 64 (skipn (64 * i) p)) = 64%nat) by (rewrite firstn_length, skipn_length; lia).
  unfold words. rewrite (nth_indep _ 0 (bytes2z e [])) by (pose proof (words_length e _ Lb) as Q; unfold words in Q; rewrite Q; exact T).
  rewrite map_nth. unfold block_word. rewrite num_eq. f_equal. etransitivity; [apply (blocks_nth 4 _ 16); lia|].
  rewrite skipn_firstn_comm, firstn_firstn, skipn_add. f_equal; [lia|]. f_equal. lia.
Qed.
Lemma block_word_wd e p n i t : length p = (64 * n)%nat -> (i < n)%nat -> (t < 16)%nat -> wd (block_word e p i t).
Proof. intros L I T. apply num_wd. rewrite firstn_length, skipn_length. lia. Qed.
Lemma nth_block p n i : length p = (64 * n)%nat -> (i < n)%nat -> nth i (blocks64 p) [] = firstn 64 (skipn (64 * i) p).
Proof. intros L I. apply (blocks_nth 64 _ n); lia. Qed.
(** padding *)
Lemma pad_ok e m : padded e m (md_pad e m).
Proof.
  unfold md_pad. set (z := Z.to_nat ((55 - zlen m) mod 64)). pose proof (Z.mod_pos_bound (55 - zlen m) 64 ltac:(lia)) as B.
  exists z, (z2bytes e 8 (8 * zlen m)). split; [reflexivity|]. split; [unfold z; lia|]. split; [apply z2bytes_length|].
  split; [rewrite num_eq, bytes2z_z2bytes; reflexivity|]. rewrite !app_length, repeat_length, z2bytes_length. cbn [length].
  exists (Z.to_nat ((zlen m + 9 + Z.of_nat z) / 64)). pose proof (Z.div_mod (55 - zlen m) 64 ltac:(lia)) as E. unfold zlen in *.
  assert (Q : Z.of_nat (length m) + 9 + Z.of_nat z = 64 * (1 - (55 - Z.of_nat (length m)) / 64)) by (unfold z; lia).
  rewrite Q, Z.mul_comm, Z.div_mul by lia. lia.
Qed.
Lemma pad_unique e m p q : padded e m p -> padded e m q -> p = q.
Proof.
  intros (z & l & -> & Z1 & L1 & N1 & (a & A)) (y & k & -> & Z2 & L2 & N2 & (b & B)). rewrite !app_length, repeat_length in A, B. cbn [length] in A, B.
  assert (z = y) as -> by lia. do 3 f_equal. apply (num_inj e); [congruence|congruence].
Qed.
(** digests *)
Lemma z2bytes4 e x : wd x -> exists a b c d, z2bytes e 4 x = [a; b; c; d] /\ num e [a; b; c; d] = x.
Proof.
  intros X. pose proof (z2bytes_length e 4 x) as L. pose proof (bytes2z_z2bytes e 4 x) as V. rewrite Z.mod_small in V by exact X.
  destruct (z2bytes e 4 x) as [|a [|b [|c [|d [|f l]]]]]; try discriminate. exists a, b, c, d. split; [reflexivity|]. rewrite num_eq. exact V.
Qed.
Lemma digest_of e (l : list Z) : Forall wd l -> digest_words e (length l) (fun j => nth j l 0) (concat (map (z2bytes e 4) l)).
Proof.
  intros F. induction F as [|x l X F IH]; [split; [reflexivity|cbn; lia]|]. destruct IH as [L H]. destruct (z2bytes4 e x X) as (a & b & c & d & E & N).
  cbn [map concat]. rewrite E. split; [rewrite app_length, L; cbn [length]; lia|]. intros [|j] J; [rewrite Nat.mul_0_r; exact N|].
  replace (4 * S j)%nat with (S (S (S (S (4 * j))))) by lia. cbn [skipn app nth]. apply H. cbn [length] in J. lia.
Qed.
Lemma digest_unique e n h d d' : digest_words e n h d -> digest_words e n h d' -> d = d'.
Proof.
  intros [L H] [L' H']. revert h d d' L L' H H'. induction n as [|n IH]; intros h d d' L L' H H'.
  - destruct d; [|discriminate L]. destruct d'; [reflexivity|discriminate L'].
  - rewrite <- (firstn_skipn 4 d), <- (firstn_skipn 4 d'). f_equal.
    + apply (num_inj e); [rewrite !firstn_length; lia|]. specialize (H 0%nat ltac:(lia)). specialize (H' 0%nat ltac:(lia)). rewrite Nat.mul_0_r in H, H'. cbn [skipn] in H, H'. congruence.
    + apply (IH (fun j => h (S j))); try (rewrite skipn_length; lia); intros j J.
      * rewrite skipn_add. replace (4 * j + 4)%nat with (4 * S j)%nat by lia. apply H. lia.
      * rewrite skipn_add. replace (4 * j + 4)%nat with (4 * S j)%nat by lia. apply H'. lia.
Qed.

(** ** the constants of SHA-256 *)
Definition primes64 : list Z := [2; 3; 5; 7; 11; 13; 17; 19; 23; 29; 31; 37; 41; 43; 47; 53; 59; 61; 67; 71; 73; 79; 83; 89; 97; 101; 103; 107; 109; 113; 127; 131; 137;
  139; 149; 151; 157; 163; 167; 173; 179; 181; 191; 193; 197; 199; 211; 223; 227; 229; 233; 239; 241; 251; 257; 263; 269; 271; 277; 281; 283; 293; 307; 311].
Definition small_check (q : Z) : bool :=
  if existsb (Z.eqb q) primes64 then trial 400 2 q else existsb (fun d => (d <? q) && (q mod d =? 0)) [2; 3; 5; 7; 11; 13; 17].
Lemma small_check_all : forallb (fun i => small_check (Z.of_nat i + 2)) (seq 0 310) = true.
Proof. vm_compute. reflexivity. Qed.
Lemma primes_below q : q < 312 -> (In q primes64 <-> prime q).
Proof.
  intros B. split.
  - intros I. assert (R : 2 <= q). { revert I. clear. unfold primes64. cbn [In]. lia. }
    pose proof (proj1 (forallb_forall _ _) small_check_all (Z.to_nat (q - 2)) ltac:(apply in_seq; lia)) as C. cbv beta in C. rewrite Z2Nat.id in C by lia. replace (q - 2 + 2) with q in C by lia.
    unfold small_check in C. assert (E : existsb (Z.eqb q) primes64 = true) by (apply existsb_exists; exists q; split; [exact I|apply Z.eqb_refl]). rewrite E in C. apply trial_prime; [lia|exact C].
  - intros P. pose proof (prime_ge_2 q P) as R.
    pose proof (proj1 (forallb_forall _ _) small_check_all (Z.to_nat (q - 2)) ltac:(apply in_seq; lia)) as C. cbv beta in C. rewrite Z2Nat.id in C by lia. replace (q - 2 + 2) with q in C by lia.
    unfold small_check in C. destruct (existsb (Z.eqb q) primes64) eqn:E; [apply existsb_exists in E as (x & I & X); apply Z.eqb_eq in X; subst x; exact I|].
    exfalso. apply existsb_exists in C as (d & I & D). apply andb_prop in D as [D1 D2]. assert (2 <= d) by (cbn [In] in I; lia).
    assert (V : (d | q)) by (apply Z.mod_divide; lia). destruct (prime_divisors q P d V) as [H1|[H1|[H1|H1]]]; lia.
Qed.
Lemma primes_nodup : NoDup primes64.
Proof.
  assert (C : forall l, (fix go (l : list Z) := match l with x :: (y :: _) as r => (x <? y) && go r | _ => true end) l = true -> NoDup l /\ forall x, In x l -> hd 0 l <= x).
  { induction l as [|x [|y r] IH]; intros H; [split; [constructor|intros x []]|split; [repeat constructor; intros []|intros z [->|[]]; cbn; lia]|].
    apply andb_prop in H as [H1 H2]. destruct (IH H2) as [N M]. split.
    - constructor; [|exact N]. intros I. apply M in I. cbn [hd] in I. lia.
    - intros z [->|I]; [cbn; lia|]. apply M in I. cbn [hd] in *. lia. }
  apply C. vm_compute. reflexivity.
Qed.
Lemma prime_no_table t : (t < 64)%nat -> prime_no t (nth t primes64 0).
Proof.
  intros T. set (p := nth t primes64 0). assert (I : In p primes64) by (apply nth_In; exact T). assert (B : p < 312) by (revert I; clear; unfold primes64; cbn [In]; lia).
  split; [apply primes_below; assumption|]. exists (filter (fun q => q <? p) primes64). split; [apply NoDup_filter, primes_nodup|]. split.
  - assert (C : forallb (fun t => Nat.eqb (length (filter (fun q => q <? nth t primes64 0) primes64)) t) (seq 0 64) = true) by (vm_compute; reflexivity).
    apply Nat.eqb_eq. apply (proj1 (forallb_forall _ _) C t). apply in_seq. lia.
  - intros q. rewrite filter_In. split.
    + intros [Q L]. split; [apply primes_below; [lia|exact Q]|lia].
    + intros [Q L]. split; [apply primes_below; [lia|exact Q]|lia].
Qed.
Definition root_check (k p c : Z) : bool :=
  (0 <=? c) && (c <? 2 ^ 32) && existsb (fun a => let r := a * 2 ^ 32 + c in (r ^ k <=? p * 2 ^ (32 * k)) && (p * 2 ^ (32 * k) <? (r + 1) ^ k)) [1; 2; 3; 4; 5; 6].
Lemma root_check_ok k p c : root_check k p c = true -> root_fraction k p c.
Proof.
  unfold root_check. intros H. apply andb_prop in H as [R H]. apply existsb_exists in H as (a & I & H). cbv zeta in H. apply andb_prop in H as [H1 H2].
  exists (a * 2 ^ 32 + c). split; [cbn [In] in I; lia|]. split; [lia|]. rewrite Z.add_comm, Z.mod_add by lia. symmetry. apply Z.mod_small. lia.
Qed.
Lemma K256_ok t : (t < 64)%nat -> sha_constant 3 t (nth t K256 0).
Proof.
  intros T. exists (nth t primes64 0). split; [apply prime_no_table, T|]. apply root_check_ok.
  assert (C : forallb (fun t => root_check 3 (nth t primes64 0) (nth t K256 0)) (seq 0 64) = true) by (vm_compute; reflexivity).
  apply (proj1 (forallb_forall _ _) C t). apply in_seq. lia.
Qed.
Definition init8 : list Z := [0x6a09e667; 0xbb67ae85; 0x3c6ef372; 0xa54ff53a; 0x510e527f; 0x9b05688c; 0x1f83d9ab; 0x5be0cd19].
Lemma init_ok t : (t < 8)%nat -> sha_constant 2 t (nth t init8 0).
Proof.
  intros T. exists (nth t primes64 0). split; [apply prime_no_table; lia|]. apply root_check_ok.
  assert (C : forallb (fun t => root_check 2 (nth t primes64 0) (nth t init8 0)) (seq 0 8) = true) by (vm_compute; reflexivity).
  apply (proj1 (forallb_forall _ _) C t). apply in_seq. lia.
Qed.
(** and they are the only ones *)
Lemma prime_no_unique t p q : prime_no t p -> prime_no t q -> p = q.
Proof.
  assert (G : forall p q, prime_no t p -> prime_no t q -> ~ p < q).
  { clear. intros p q (P & l & N & L & M) (Q & k & N' & L' & M') H.
    assert (length (p :: l) <= length k)%nat; [|cbn [length] in *; lia]. apply NoDup_incl_length.
    - constructor; [|exact N]. intros I. apply M in I. lia.
    - intros x [->|I]; apply M'; [split; [exact P|exact H]|]. apply M in I. split; [tauto|lia]. }
  intros A B. pose proof (G p q A B). pose proof (G q p B A). lia.
Qed.
Lemma root_unique k p r s : 0 < k -> 0 <= r -> 0 <= s -> r ^ k <= p < (r + 1) ^ k -> s ^ k <= p < (s + 1) ^ k -> r = s.
Proof.
  intros K R S1 A B. destruct (Z.lt_trichotomy r s) as [H|[H|H]]; [|exact H|].
  - pose proof (Z.pow_le_mono_l (r + 1) s k ltac:(lia)). lia.
  - pose proof (Z.pow_le_mono_l (s + 1) r k ltac:(lia)). lia.
Qed.
Lemma sha_constant_unique k t c d : 0 < k -> sha_constant k t c -> sha_constant k t d -> c = d.
Proof.
  intros K (p & P & r & R0 & R & ->) (q & Q & s & S0 & S1 & ->). rewrite (prime_no_unique t q p Q P) in S1. f_equal. exact (root_unique k _ r s K R0 S0 R S1).
Qed.

(** ** the message schedule *)
Definition next_word (l : list Z) (n : nat) : Z :=
  let W i := nth i l 0 in
  add32 (add32 (W (n - 16)%nat) (Z.lxor (Z.lxor (rotr 7 (W (n - 15)%nat)) (rotr 18 (W (n - 15)%nat))) (Z.shiftr (W (n - 15)%nat) 3)))
        (add32 (W (n - 7)%nat) (Z.lxor (Z.lxor (rotr 17 (W (n - 2)%nat)) (rotr 19 (W (n - 2)%nat))) (Z.shiftr (W (n - 2)%nat) 10))).
Lemma next_word_app l r n : (16 <= n <= length l)%nat -> next_word (l ++ r) n = next_word l n.
Proof. intros N. unfold next_word. rewrite !app_nth1 by lia. reflexivity. Qed.
Lemma recent_nth (pre : list Z) j : (16 <= length pre)%nat -> (j < 16)%nat -> nth j (firstn 16 (rev pre)) 0 = nth (length pre - S j) pre 0.
Proof.
  intros L J. rewrite <- rev_nth by lia. rewrite <- (firstn_skipn 16 (rev pre)) at 2. rewrite app_nth1; [reflexivity|]. rewrite firstn_length, rev_length. lia.
Qed.
Lemma schedule_spec k : forall pre, (16 <= length pre)%nat ->
  length (schedule k (firstn 16 (rev pre))) = k /\
  forall t, (length pre <= t < length pre + k)%nat -> nth t (pre ++ schedule k (firstn 16 (rev pre))) 0 = next_word (pre ++ schedule k (firstn 16 (rev pre))) t.
Proof.
  induction k as [|k IH]; intros pre L; [split; [reflexivity|lia]|].
  set (w := next_word pre (length pre)).
  assert (E : schedule (S k) (firstn 16 (rev pre)) = w :: schedule k (firstn 16 (rev (pre ++ [w])))).
  { cbn [schedule]. rewrite !recent_nth by lia. rewrite rev_app_distr. cbn [rev app]. change (firstn 16 (w :: rev pre)) with (w :: firstn 15 (rev pre)). rewrite firstn_firstn. reflexivity. }
  rewrite E. specialize (IH (pre ++ [w]) ltac:(rewrite app_length; lia)) as [IL IN]. rewrite app_length in IN. cbn [length] in IN.
  split; [cbn [length]; rewrite IL; reflexivity|]. intros t T. replace (pre ++ w :: _) with ((pre ++ [w]) ++ schedule k (firstn 16 (rev (pre ++ [w])))) by (rewrite <- app_assoc; reflexivity).
  destruct (Nat.eq_dec t (length pre)) as [->|Ne]; [|apply IN; lia].
  rewrite <- app_assoc. cbn [app]. rewrite app_nth2, Nat.sub_diag by lia. cbn [nth]. rewrite next_word_app by lia. reflexivity.
Qed.
Definition the_schedule (w : list Z) : list Z := w ++ schedule 48 (rev w).
Lemma the_schedule_spec w : length w = 16%nat -> length (the_schedule w) = 64%nat /\ (forall t, (t < 16)%nat -> nth t (the_schedule w) 0 = nth t w 0) /\
  forall t, (16 <= t < 64)%nat -> nth t (the_schedule w) 0 = next_word (the_schedule w) t.
Proof.
  intros L. unfold the_schedule. assert (R : rev w = firstn 16 (rev w)) by (symmetry; apply firstn_all2; rewrite rev_length; lia). rewrite R.
  destruct (schedule_spec 48 w ltac:(lia)) as [A B]. split; [rewrite app_length, A; lia|]. split; [intros t T; apply app_nth1; lia|]. intros t T. apply B. lia.
Qed.
Lemma schedule_wd w : length w = 16%nat -> (forall t, (t < 16)%nat -> wd (nth t w 0)) -> forall t, (t < 64)%nat -> wd (nth t (the_schedule w) 0).
Proof.
  intros L W t T. destruct (the_schedule_spec w L) as (_ & A & B). destruct (Nat.lt_ge_cases t 16) as [H|H]; [rewrite A by exact H; apply W, H|].
  rewrite B by lia. apply add32_wd.
Qed.
Lemma small_sigma a b c x : (0 < a < 32)%nat -> (0 < b < 32)%nat -> wd x ->
  Z.lxor (Z.lxor (rotr (Z.of_nat a) x) (rotr (Z.of_nat b) x)) (Z.shiftr x (Z.of_nat c)) = xor3 (turn_right a x) (turn_right b x) (move_right c x).
Proof. intros A B X. rewrite !rotr_eq, shr_eq by assumption. apply xor3_eq; apply word_of_wd. Qed.
Lemma big_sigma a b c x : (0 < a < 32)%nat -> (0 < b < 32)%nat -> (0 < c < 32)%nat -> wd x ->
  Z.lxor (Z.lxor (rotr (Z.of_nat a) x) (rotr (Z.of_nat b) x)) (rotr (Z.of_nat c) x) = xor3 (turn_right a x) (turn_right b x) (turn_right c x).
Proof. intros A B C X. rewrite !rotr_eq by assumption. apply xor3_eq; apply word_of_wd. Qed.
Lemma schedule_is X w : length w = 16%nat -> (forall t, (t < 16)%nat -> nth t w 0 = X t /\ wd (X t)) -> sha_schedule X (fun t => nth t (the_schedule w) 0).
Proof.
  intros L W. assert (D : forall t, (t < 16)%nat -> wd (nth t w 0)) by (intros t T; destruct (W t T) as [-> H]; exact H). pose proof (schedule_wd w L D) as SW.
  destruct (the_schedule_spec w L) as (_ & A & B). split; [intros t T; rewrite A by exact T; apply W, T|]. intros t T. rewrite B by exact T. unfold next_word.
  change 7 with (Z.of_nat 7). change 18 with (Z.of_nat 18). change 3 with (Z.of_nat 3). change 17 with (Z.of_nat 17). change 19 with (Z.of_nat 19). change 10 with (Z.of_nat 10).
  rewrite !small_sigma by (lia || apply SW; lia). rewrite add4. unfold sum32, sigma0, sigma1. cbn [fold_right]. f_equal. ring.
Qed.
