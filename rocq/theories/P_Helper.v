(** * P_Helper: properties C45, C46 *)
From Coq Require Import Lia ZifyBool ZifyNat.
From Verif Require Import M_Py M_Hash M_Base58 M_UInt M_Helper S_IO S_Address L_Bytes L_IO L_Base58.

(** ** C45 base256_encode is the little-endian representation *)
Theorem C45_little_endian : forall n w, 0 <= n -> exists b k, base256_encode n w = Ok b /\ num LE b = n /\
  zlen b = Z.max w k /\ 1 <= k /\ n < 256 ^ k /\ (k = 1 \/ 256 ^ (k - 1) <= n).
Proof.
  intros n w Hn. unfold base256_encode.
  assert (G : forall b k, num LE (rev b) = n -> zlen b = k -> 1 <= k -> n < 256 ^ k -> k = 1 \/ 256 ^ (k - 1) <= n ->
    exists c j, (do b <- Ok b; let b := if (w >? 0) && (zlen b <? w) then repeat x00 (Z.to_nat (w - zlen b)) ++ b else b in Ok (rev b)) = Ok c /\
      num LE c = n /\ zlen c = Z.max w j /\ 1 <= j /\ n < 256 ^ j /\ (j = 1 \/ 256 ^ (j - 1) <= n)).
  { intros b k V L K U Lo. cbn [rbind]. eexists. exists k. split; [reflexivity|]. destruct ((w >? 0) && (zlen b <? w)) eqn:C.
    - repeat split; try assumption.
      + rewrite rev_app_distr. cbn [num] in *. rewrite <- V. assert (E : forall l r, num_le (l ++ r) = num_le l + 256 ^ zlen l * num_le r).
        { intros l r. rewrite !num_le_eq. apply le2z_app. }
        rewrite E. assert (Z0 : forall m, num_le (rev (repeat x00 m)) = 0).
        { intros m. rewrite num_le_eq. induction m as [|m IH]; [reflexivity|]. cbn [repeat rev]. rewrite le2z_app, IH. cbn. lia. }
        rewrite Z0. lia.
      + rewrite zlen_rev, zlen_app. unfold zlen at 1. rewrite repeat_length. lia.
    - repeat split; try assumption. rewrite zlen_rev. lia. }
  destruct (n >? 0) eqn:P.
  - destruct (digits_ok 256 n ltac:(lia) Hn) as (F & N & V). set (ds := divmod_digits 256 n) in *.
    assert (NE : ds <> []) by (intros E; rewrite E in V; cbn in V; lia).
    pose proof (val_bounds 256 ds ltac:(lia) F). pose proof (val_pos 256 ds ltac:(lia) F N NE). rewrite V in *.
    assert (1 <= zlen ds) by (destruct ds; [congruence|rewrite zlen_cons; pose proof (zlen_nonneg ds); lia]).
    apply (G _ (zlen ds)); try lia.
    + rewrite <- map_rev, rev_involutive. cbn [num]. rewrite num_le_eq, le2z_val, map_b2z_z2b by exact F. exact V.
    + rewrite zlen_map, zlen_rev. reflexivity.
  - destruct (n =? 0) eqn:Z0; [|lia]. apply (G _ 1); try (cbn; lia). 
Qed.
Print Assumptions C45_little_endian.
Theorem C45_negative_raises : forall n w, n < 0 -> base256_encode n w = Raise ValueError.
Proof. intros n w H. unfold base256_encode. replace (n >? 0) with false by lia. replace (n =? 0) with false by lia. reflexivity. Qed.
Print Assumptions C45_negative_raises.
Example C45_example : base256_encode 258 4 = Ok [x02; x01; x00; x00] /\ base256_encode 0 0 = Ok [x00] /\
  base256_encode 65536 (-3) = Ok [x00; x00; x01].
Proof. repeat split. Qed.

(** ** C46 xor_bytes is an involution *)
Lemma xor_loop_length a : forall b, length a = length b -> length (xor_loop a b) = length a.
Proof. induction a as [|x a IH]; intros [|y b] H; cbn in *; try lia. rewrite IH; lia. Qed.
Lemma xor_loop_nth a : forall b i, length a = length b -> (i < length a)%nat ->
  b2z (nth i (xor_loop a b) x00) = Z.lxor (b2z (nth i a x00)) (b2z (nth i b x00)).
Proof.
  induction a as [|x a IH]; intros [|y b] i H Hi; cbn in *; try lia. destruct i as [|i]; [|apply IH; lia].
  rewrite b2z_z2b. apply Z.mod_small. assert (forall u, 0 <= u < 256 -> Z.log2 u < 8) as L by (intros u Hu; destruct (Z.eq_dec u 0) as [->|]; [cbn; lia|apply Z.log2_lt_pow2; cbn; lia]).
  pose proof (b2z_range x). pose proof (b2z_range y). assert (0 <= Z.lxor (b2z x) (b2z y)) by (apply Z.lxor_nonneg; lia).
  split; [assumption|]. destruct (Z.eq_dec (Z.lxor (b2z x) (b2z y)) 0) as [->|]; [lia|]. change 256 with (2 ^ 8). apply Z.log2_lt_pow2; [lia|].
  eapply Z.le_lt_trans; [apply Z.log2_lxor; lia|]. apply Z.max_lub_lt; apply L; assumption.
Qed.
Theorem C46_xor : forall a b, length a = length b -> exists c, xor_bytes (VBytes a) (VBytes b) = Ok c /\ length c = length a /\
  (forall i, (i < length a)%nat -> b2z (nth i c x00) = Z.lxor (b2z (nth i a x00)) (b2z (nth i b x00))).
Proof.
  intros a b H. exists (xor_loop a b). cbn [xor_bytes]. replace (zlen a =? zlen b) with true by (unfold zlen; lia).
  split; [reflexivity|]. split; [apply xor_loop_length, H|]. intros i Hi. apply xor_loop_nth; assumption.
Qed.
Print Assumptions C46_xor.
Theorem C46_involution : forall a b, length a = length b ->
  (do c <- xor_bytes (VBytes a) (VBytes b); xor_bytes (VBytes c) (VBytes b)) = Ok a.
Proof.
  intros a b H. destruct (C46_xor a b H) as (c & -> & Lc & Nc). cbn [rbind].
  destruct (C46_xor c b ltac:(lia)) as (d & -> & Ld & Nd). f_equal. apply (nth_ext d a x00 x00); [lia|]. intros i Hi.
  apply b2z_inj. rewrite Nd, Nc by lia. rewrite Z.lxor_assoc, Z.lxor_nilpotent, Z.lxor_0_r. reflexivity.
Qed.
Print Assumptions C46_involution.
Theorem C46_otherwise_raises : forall u v,
  (forall a b, u = VBytes a -> v = VBytes b -> length a <> length b) -> xor_bytes u v = Raise AssertionError.
Proof.
  intros u v H. destruct u; try reflexivity. destruct v; try reflexivity. cbn [xor_bytes].
  specialize (H _ _ eq_refl eq_refl). replace (zlen b =? zlen b0) with false by (unfold zlen; lia). reflexivity.
Qed.
Print Assumptions C46_otherwise_raises.
Example C46_example : xor_bytes (VBytes [xff; x0f]) (VBytes [x0f; x0f]) = Ok [xf0; x00] /\
  xor_bytes (VBytes [xff]) (VBytes [x0f; x0f]) = Raise AssertionError /\ xor_bytes (VBytearray [xff]) (VBytes [x0f]) = Raise AssertionError.
Proof. repeat split. Qed.
