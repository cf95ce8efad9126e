(** * P_Merkle: C55-C59 (MerkleTree) *)
From Coq Require Import ZArith Lia List Arith.
From Verif Require Import M_Py M_Hash M_UInt M_Helper M_ECCurve M_Merkle L_Bytes S_IO S_IO2 S_UInt S_Merkle L_UInt L_Merkle L_Merkle2.
Import ListNotations.
Open Scope Z_scope.

(** concrete lists for the examples *)
Definition leaf (b : byte) : uint := mkUInt CUInt256 (repeat b 32) (num LE (repeat b 4)).
Definition leaves3 : list uint := [leaf x01; leaf x02; leaf x03].
Lemma leaf_wf b : is_UInt256 (leaf b). Proof. split; [reflexivity|split; reflexivity]. Qed.

(** ** C55 Merkle root is the pairwise double-SHA-256 fold *)
Theorem C55_root : forall H hs r, hash_ok H -> hs <> [] -> zlen hs < 2 ^ 53 - 1 ->
  (ComputeRoot H hs = Some (Ok r) <-> merkle_root H hs r).
Proof.
  intros H hs r O N B. assert (G : exists r', ComputeRoot H hs = Some (Ok r') /\ merkle_root H hs r').
  { destruct (new_tree H hs [] O N B) as (t & h & rows & r' & E & _ & _ & Hr & M & _). destruct hs as [|x [|y hs]]; [congruence| |].
    - exists x. split; [reflexivity|constructor].
    - exists r'. unfold ComputeRoot. rewrite E, Hr. auto. }
  destruct G as (r' & E & M). split.
  - intros E'. assert (r = r') as -> by congruence. exact M.
  - intros M'. rewrite (merkle_root_fun _ _ _ M' _ M). exact E.
Qed.
Print Assumptions C55_root.
(** exactly one root: the computation always ends with a result *)
Theorem C55_total : forall H hs, hash_ok H -> hs <> [] -> zlen hs < 2 ^ 53 - 1 ->
  exists r, ComputeRoot H hs = Some (Ok r) /\ merkle_root H hs r /\ forall r', merkle_root H hs r' -> r' = r.
Proof.
  intros H hs O N B. destruct (new_tree H hs [] O N B) as (t & h & rows & r & _ & _ & _ & _ & M & _). exists r.
  split; [apply C55_root; assumption|]. split; [exact M|]. intros r' M'. exact (merkle_root_fun _ _ _ M' _ M).
Qed.
Print Assumptions C55_total.
Theorem C55_empty : forall H, ComputeRoot H [] = Some (Raise PlainException) /\ forall h, new_MerkleTree H [] h = Some (Raise PlainException, h).
Proof. intros H. split; [reflexivity|]. intros h. unfold new_MerkleTree. cbn. rewrite app_nil_r. reflexivity. Qed.
Print Assumptions C55_empty.
Theorem C55_one : forall H u, ComputeRoot H [u] = Some (Ok u).
Proof. reflexivity. Qed.
Print Assumptions C55_one.
(** three leaves: the root is the digest of the digests of (1,2) and (3,3) *)
Example C55_example : hash_ok real_hashes /\ exists ab cc r, digest real_hashes (leaf x01) (leaf x02) ab /\ digest real_hashes (leaf x03) (leaf x03) cc /\
  digest real_hashes ab cc r /\ ComputeRoot real_hashes leaves3 = Some (Ok r) /\ merkle_root real_hashes leaves3 r.
Proof.
  split; [exact real_hashes_ok|].
  destruct (digest_exists real_hashes (leaf x01) (leaf x02) real_hashes_ok) as [ab D1]. destruct (digest_exists real_hashes (leaf x03) (leaf x03) real_hashes_ok) as [cc D2].
  destruct (digest_exists real_hashes ab cc real_hashes_ok) as [r D3]. exists ab, cc, r. do 3 (split; [assumption|]).
  assert (M : merkle_root real_hashes leaves3 r).
  { apply (mr_up _ _ [ab; cc]); [cbn; lia|apply pu_pair; [exact D1|apply pu_odd, D2]|]. apply (mr_up _ _ [r]); [cbn; lia|apply pu_pair; [exact D3|constructor]|constructor]. }
  split; [|exact M]. apply C55_root; [exact real_hashes_ok|discriminate|reflexivity|exact M].
Qed.

(** ** C56 Merkle tree shape *)
Lemma rows_log n k : (0 < n)%nat -> (n <= 2 ^ k)%nat -> (k = 0 \/ 2 ^ (k - 1) < n)%nat -> Z.log2_up (Z.of_nat n) = Z.of_nat k.
Proof.
  intros N U L. destruct k as [|k]; [cbn in U; assert (n = 1%nat) as -> by lia; reflexivity|]. destruct L as [L|L]; [lia|]. replace (S k - 1)%nat with k in L by lia.
  apply Z.log2_up_unique; [lia|]. replace (Z.pred (Z.of_nat (S k))) with (Z.of_nat k) by lia.
  replace (2 ^ Z.of_nat k) with (Z.of_nat (2 ^ k)) by (rewrite Nat2Z.inj_pow; reflexivity). replace (2 ^ Z.of_nat (S k)) with (Z.of_nat (2 ^ S k)) by (rewrite Nat2Z.inj_pow; reflexivity). lia.
Qed.
Theorem C56_shape : forall H hs h0, hash_ok H -> hs <> [] -> zlen hs < 2 ^ 53 - 1 ->
  exists t h leaves rows, new_MerkleTree H hs h0 = Some (Ok t, h) /\
    tree_of H h hs leaves rows (t_Root t) /\
    t_Depth t = 1 + zlen rows /\ t_Depth t = 1 + Z.log2_up (zlen hs) /\
    (forall r, n_Hash (deref h (t_Root t)) = Some r <-> merkle_root H hs r) /\
    (forall a, (a < length h0)%nat -> deref h a = deref h0 a).
Proof.
  intros H hs h0 O N B. destruct (new_tree H hs h0 O N B) as (t & h & rows & r & E & T & D & Hr & M & F).
  exists t, h, (seq (length h0) (length hs)), rows. split; [exact E|]. split; [exact T|]. split; [exact D|]. split; [|split].
  - rewrite D. f_equal. destruct T as (_ & R & _). destruct (rows_count _ _ _ _ _ R) as [U L]. rewrite seq_length in U, L. unfold zlen at 2. symmetry. apply rows_log; [destruct hs; [congruence|cbn; lia]|exact U|].
    destruct L as [[-> _]|[_ L]]; [left; reflexivity|right; exact L].
  - intros r'. rewrite Hr. split; [intros X; assert (r' = r) as -> by congruence; exact M|intros M'; rewrite (merkle_root_fun _ _ _ M' _ M); reflexivity].
  - exact F.
Qed.
Print Assumptions C56_shape.
(** which nodes are leaves and which is the root *)
Lemma rows_root_in H h low rows root : rows_above H h low rows root -> In root (low ++ concat rows) /\ n_Parent (deref h root) = None /\
  (forall a, In a (low ++ concat rows) -> n_Parent (deref h a) = None -> a = root) /\ (forall a, In a (concat rows) -> n_LeftChild (deref h a) <> None).
Proof.
  induction 1 as [a P|low up rest root L A R IH].
  - cbn. split; [auto|]. split; [exact P|]. split; [intros b [->|[]] _; reflexivity|intros b []].
  - destruct IH as (I1 & I2 & I3 & I4). cbn [concat]. split; [apply in_app_iff; right; exact I1|]. split; [exact I2|]. split.
    + intros a Ia Pa. apply in_app_iff in Ia as [Ia|Ia]; [|apply I3; assumption]. exfalso.
      destruct (above_child _ _ _ _ A a Ia) as (b & Ib & _ & Cb). apply In_nth_error in Ib as [i E]. destruct (proj2 A i b E) as (l & r & hl & hr & u & _ & _ & Cl & Cr & Pl & Pr & _).
      destruct Cb as [Cb|Cb]; [assert (a = l) as -> by congruence|assert (a = r) as -> by congruence]; congruence.
    + intros a Ia. apply in_app_iff in Ia as [Ia|Ia]; [|apply I4, Ia]. apply In_nth_error in Ia as [i E]. destruct (proj2 A i a E) as (l & r & hl & hr & u & _ & _ & Cl & _). congruence.
Qed.
Theorem C56_leaf_root : forall H h hs leaves rows root a, tree_of H h hs leaves rows root -> In a (leaves ++ concat rows) ->
  (IsRoot h a = true <-> a = root) /\ (IsLeaf h a = true <-> In a leaves).
Proof.
  intros H h hs leaves rows root a (F & R & N & B) I. destruct (rows_root_in _ _ _ _ _ R) as (I1 & I2 & I3 & I4). unfold IsRoot, IsLeaf. split.
  - destruct (n_Parent (deref h a)) eqn:E; split; try discriminate; try congruence. intros _. apply I3; assumption.
  - apply in_app_iff in I as [I|I].
    + pose proof I as J. apply In_nth_error in I as [i E]. destruct (nth_Forall2 _ _ _ F i a E) as (u & _ & _ & -> & ->). tauto.
    + specialize (I4 a I). destruct (n_LeftChild (deref h a)); [|congruence]. split; [discriminate|]. intros J. exfalso. clear - N I J.
      induction leaves as [|x l IH]; [destruct J|]. cbn in N. inversion N as [|? ? Nx N']; subst. destruct J as [->|J]; [apply Nx, in_app_iff; auto|exact (IH N' J)].
Qed.
Print Assumptions C56_leaf_root.
Example C56_example : exists t h, new_MerkleTree real_hashes leaves3 [] = Some (Ok t, h) /\ t_Depth t = 3 /\ t_Root t = 5%nat /\ length h = 6%nat /\
  tree_of real_hashes h leaves3 [0; 1; 2]%nat [[3; 4]; [5]]%nat 5%nat.
Proof.
  destruct (new_tree real_hashes leaves3 [] real_hashes_ok ltac:(discriminate) ltac:(reflexivity)) as (t & h & rows & r & E & T & D & _).
  assert (X : match new_MerkleTree real_hashes leaves3 [] with Some (Ok t', h') => t_Root t' = 5%nat /\ t_Depth t' = 3 /\ length h' = 6%nat /\
     n_LeftChild (deref h' 5%nat) = Some 3%nat /\ n_RightChild (deref h' 5%nat) = Some 4%nat | _ => False end) by (vm_compute; repeat split; reflexivity).
  rewrite E in X. destruct X as (X1 & X2 & X3 & X4 & X5). exists t, h. split; [exact E|]. split; [exact X2|]. split; [exact X1|]. split; [exact X3|].
  rewrite X1 in T. change (seq (length (@nil node)) (length leaves3)) with [0; 1; 2]%nat in T. pose proof T as (_ & R & _).
  assert (rows = [[3; 4]; [5]]%nat) as <-; [|exact T]. clear E.
  inversion R as [|? up rest ? _ A R']; subst. destruct A as [Lu A]. cbn in Lu. destruct up as [|u1 [|u2 [|]]]; try discriminate Lu.
  inversion R' as [|? up rest' ? _ A' R'']; subst. destruct A' as [Lu' A']. cbn in Lu'. destruct up as [|u3 [|]]; try discriminate Lu'.
  destruct (A' 0%nat u3 eq_refl) as (l & rr & hl & hr & u & El & Er & Cl & Cr & _). cbn in El, Er. destruct Er as [Er|[Er _]]; [|discriminate Er].
  inversion R'' as [? P Ea|? up ? ? Lx _ _]; subst; [|cbn in Lx; lia].
  rewrite X4 in Cl. rewrite X5 in Cr. assert (u1 = 3%nat) as -> by congruence. assert (u2 = 4%nat) as -> by congruence. reflexivity.
Qed.

(** ** C57 ToHashArray returns each leaf hash once *)
Lemma dfs_tree H h hs leaves rows t : Forall is_UInt256 hs -> tree_of H h hs leaves rows (t_Root t) ->
  exists out, ToHashArray t h = Some (Ok out) /\ NoDup out /\ forall u, In u out <-> In u hs.
Proof.
  intros W T. destruct (tree_sees _ _ _ _ _ _ T) as (L & SL & IL). unfold ToHashArray. rewrite (dfs_spec _ _ _ _ SL) by exact (rows_le_heap _ _ _ _ _ _ T).
  eexists. split; [reflexivity|]. destruct (set_fold L) with (s := @nil uint) as [N I]; [|constructor|constructor|].
  - apply Forall_forall. intros u U. rewrite Forall_forall in W. apply W, IL, U.
  - split; [exact N|]. intros u. rewrite I, IL. cbn. tauto.
Qed.
Theorem C57_hashes : forall H hs h0 t h, hash_ok H -> zlen hs < 2 ^ 53 - 1 -> Forall is_UInt256 hs ->
  new_MerkleTree H hs h0 = Some (Ok t, h) ->
  exists out, ToHashArray t h = Some (Ok out) /\ NoDup out /\ forall u, In u out <-> In u hs.
Proof.
  intros H hs h0 t h O B W E. assert (N : hs <> []). { intros ->. rewrite (proj2 (C55_empty H)) in E. discriminate. }
  destruct (C56_shape H hs h0 O N B) as (t' & h' & leaves & rows & E' & T & _). assert (t' = t) as -> by congruence. assert (h' = h) as -> by congruence.
  exact (dfs_tree H h hs leaves rows t W T).
Qed.
Print Assumptions C57_hashes.
(** so the result is shorter than the list of leaves exactly when two of them are equal *)
Theorem C57_duplicates : forall H hs h0 t h out, hash_ok H -> zlen hs < 2 ^ 53 - 1 -> Forall is_UInt256 hs ->
  new_MerkleTree H hs h0 = Some (Ok t, h) -> ToHashArray t h = Some (Ok out) ->
  zlen out <= zlen hs /\ (zlen out = zlen hs <-> NoDup hs).
Proof.
  intros H hs h0 t h out O B W E Eo. destruct (C57_hashes H hs h0 t h O B W E) as (out' & E' & N & I). assert (out' = out) as -> by congruence.
  assert (L : (length out <= length hs)%nat) by (apply NoDup_incl_length; [exact N|intros u; apply I]). unfold zlen. split; [lia|]. split.
  - intros X. apply (@NoDup_incl_NoDup _ out hs N); [lia|intros u; apply I].
  - intros Nh. assert (length hs <= length out)%nat by (apply NoDup_incl_length; [exact Nh|intros u; apply I]). lia.
Qed.
Print Assumptions C57_duplicates.
Example C57_example : let hs := [leaf x01; leaf x02; leaf x01; leaf x02; leaf x03] in
  match new_MerkleTree real_hashes hs [] with
  | Some (Ok t, h) => t_Depth t = 4 /\ ToHashArray t h = Some (Ok [leaf x01; leaf x02; leaf x03])
  | _ => False
  end.
Proof. vm_compute. split; reflexivity. Qed.

(** ** C58 Trim only looks at the first two flags *)
Lemma flag_pad flags n i : 0 <= i < zlen flags + Z.of_nat n -> flag_at (flags ++ repeat x00 n) i = Ok (nth (Z.to_nat i) flags x00).
Proof.
  intros B. unfold flag_at. assert (L : zlen (flags ++ repeat x00 n) = zlen flags + Z.of_nat n) by (unfold zlen; rewrite app_length, repeat_length; lia). rewrite L.
  destruct (Z.ltb_spec i 0); [lia|]. destruct (Z.leb_spec 0 i); [|lia]. destruct (Z.ltb_spec i (zlen flags + Z.of_nat n)); [|lia]. cbn [andb]. f_equal.
  destruct (Z.lt_ge_cases i (zlen flags)) as [X|X]; unfold zlen in *; [apply app_nth1; lia|]. rewrite app_nth2 by lia. rewrite (nth_overflow flags) by lia. apply nth_repeat.
Qed.
Lemma b2z_zero b : (b2z b =? 0) = true <-> b = x00.
Proof. split; [|intros ->; reflexivity]. destruct b; try reflexivity; discriminate. Qed.
Lemma trim_look flags k : (1 <= k)%nat -> let f := flags ++ repeat x00 (Z.to_nat (Z.shiftl 1 (Z.of_nat k) - zlen flags)) in
  look f (0 * 2 ^ Z.of_nat k) = Ok (if Byte.byte_eq_dec (nth 0 flags x00) x00 then if Byte.byte_eq_dec (nth 1 flags x00) x00 then true else false else false).
Proof.
  intros K f. assert (P : 2 <= Z.shiftl 1 (Z.of_nat k)). { rewrite Z.shiftl_1_l. change 2 with (2 ^ 1) at 1. apply Z.pow_le_mono_r; lia. }
  unfold look. rewrite Z.mul_0_l. unfold f. assert (0 <= zlen flags) by (unfold zlen; lia). rewrite flag_pad by lia. cbn [rbind]. change (Z.to_nat 0) with 0%nat.
  destruct (Byte.byte_eq_dec (nth 0 flags x00) x00) as [->|N].
  - change (negb (b2z x00 =? 0)) with false. cbv iota. rewrite flag_pad by lia. cbn [rbind]. change (Z.to_nat (0 + 1)) with 1%nat. f_equal.
    destruct (Byte.byte_eq_dec (nth 1 flags x00) x00) as [->|N]; [reflexivity|]. destruct (b2z (nth 1 flags x00) =? 0) eqn:E; [apply b2z_zero in E; contradiction|reflexivity].
  - destruct (b2z (nth 0 flags x00) =? 0) eqn:E; [apply b2z_zero in E; contradiction|]. reflexivity.
Qed.
Lemma trim_unfold t (rows : list (list addr)) flags h : t_Depth t = 1 + zlen rows ->
  Trim t flags h = trim_node (S (length rows)) (t_Root t) 0 (flags ++ repeat x00 (Z.to_nat (Z.shiftl 1 (Z.of_nat (length rows)) - zlen flags))) h.
Proof.
  intros D. unfold Trim. rewrite D. change (zlen rows) with (Z.of_nat (length rows)). replace (1 + Z.of_nat (length rows) - 1) with (Z.of_nat (length rows)) by lia.
  replace (Z.to_nat (1 + Z.of_nat (length rows))) with (S (length rows)) by lia. reflexivity.
Qed.
Theorem C58_trim : forall H h hs leaves rows t flags, tree_of H h hs leaves rows (t_Root t) -> t_Depth t = 1 + zlen rows ->
  (nth 0 flags x00 <> x00 \/ nth 1 flags x00 <> x00 -> Trim t flags h = Some (Ok tt, h)) /\
  (nth 0 flags x00 = x00 /\ nth 1 flags x00 = x00 -> exists h', Trim t flags h = Some (Ok tt, h') /\ without_children h h' (concat rows)).
Proof.
  intros H h hs leaves rows t flags T D. rewrite (trim_unfold t rows flags h D). destruct (Nat.eq_dec (length rows) 0) as [Z|N].
  - assert (rows = []) as -> by (destruct rows; [reflexivity|discriminate]). cbn. split; [reflexivity|]. intros _. exists h. split; [reflexivity|]. split; [reflexivity|]. intros x. split; [intros []|reflexivity].
  - pose proof (trim_look flags (length rows) ltac:(lia)) as K. cbv zeta in K. split.
    + intros Q. apply (trim_keep h (lev rows) (length rows) _ (tree_tall _ _ _ _ _ _ T)); [exact N|]. rewrite K.
      destruct (Byte.byte_eq_dec (nth 0 flags x00) x00); [destruct (Byte.byte_eq_dec (nth 1 flags x00) x00); [tauto|reflexivity]|reflexivity].
    + intros [Q1 Q2]. apply (tree_clear H h hs leaves rows _ 0 _ T). rewrite K, Q1, Q2. reflexivity.
Qed.
Print Assumptions C58_trim.
(** for every tree the constructor returns; nothing but the children of inner nodes is lost *)
Theorem C58_constructed : forall H hs h0 t h flags, hash_ok H -> zlen hs < 2 ^ 53 - 1 -> new_MerkleTree H hs h0 = Some (Ok t, h) ->
  exists h', Trim t flags h = Some (Ok tt, h') /\ n_Hash (deref h' (t_Root t)) = n_Hash (deref h (t_Root t)) /\
    (h' = h \/ (forall r, n_Hash (deref h (t_Root t)) = Some r -> ToHashArray t h' = Some (Ok [r])) /\ IsLeaf h' (t_Root t) = true) /\
    (forall flags', firstn 2 (flags ++ [x00; x00]) = firstn 2 (flags' ++ [x00; x00]) -> Trim t flags' h = Trim t flags h).
Proof.
  intros H hs h0 t h flags O B E. assert (N : hs <> []). { intros ->. rewrite (proj2 (C55_empty H)) in E. discriminate. }
  destruct (C56_shape H hs h0 O N B) as (t' & h' & leaves & rows & E' & T & D & _). assert (t' = t) as -> by congruence. assert (h' = h) as -> by congruence.
  assert (F2 : forall f f' : bytes, firstn 2 (f ++ [x00; x00]) = firstn 2 (f' ++ [x00; x00]) -> nth 0 f x00 = nth 0 f' x00 /\ nth 1 f x00 = nth 1 f' x00).
  { intros [|a [|b f]] [|c [|d f']]; cbn; intros X; split; congruence. }
  destruct (C58_trim H h hs leaves rows t flags T D) as [K C].
  assert (Dec : (nth 0 flags x00 <> x00 \/ nth 1 flags x00 <> x00) \/ (nth 0 flags x00 = x00 /\ nth 1 flags x00 = x00)).
  { destruct (Byte.byte_eq_dec (nth 0 flags x00) x00), (Byte.byte_eq_dec (nth 1 flags x00) x00); tauto. }
  destruct Dec as [Q|Q].
  - exists h. split; [exact (K Q)|]. split; [reflexivity|]. split; [left; reflexivity|]. intros flags' X. rewrite (K Q). destruct (F2 _ _ X) as [X1 X2]. rewrite X1, X2 in Q.
    exact (proj1 (C58_trim H h hs leaves rows t flags' T D) Q).
  - destruct (C Q) as (h' & Eh & L & W). exists h'. split; [exact Eh|].
    assert (R : n_Hash (deref h' (t_Root t)) = n_Hash (deref h (t_Root t))). { destruct (in_dec Nat.eq_dec (t_Root t) (concat rows)) as [I|I]; [rewrite (proj1 (W _) I)|rewrite (proj2 (W _) I)]; reflexivity. }
    assert (Cl : n_LeftChild (deref h' (t_Root t)) = None /\ n_RightChild (deref h' (t_Root t)) = None).
    { destruct (in_dec Nat.eq_dec (t_Root t) (concat rows)) as [I|I]; [rewrite (proj1 (W _) I); split; reflexivity|]. rewrite (proj2 (W _) I).
      destruct T as (F & Ra & _). destruct (rows_root_in _ _ _ _ _ Ra) as (Ir & _). apply in_app_iff in Ir as [Ir|Ir]; [|contradiction]. apply In_nth_error in Ir as [i Ei]. destruct (nth_Forall2 _ _ _ F i _ Ei) as (u & _ & _ & -> & ->). auto. }
    split; [exact R|]. split.
    + right. split; [|unfold IsLeaf; destruct Cl as [-> ->]; reflexivity]. intros r Er. unfold ToHashArray. destruct (length h'); cbn [dfs]; destruct Cl as [-> _]; rewrite R, Er; reflexivity.
    + intros flags' X. destruct (F2 _ _ X) as [X1 X2]. rewrite X1, X2 in Q. destruct (proj2 (C58_trim H h hs leaves rows t flags' T D) Q) as (h2 & E2 & W2).
      rewrite E2, Eh. do 2 f_equal. exact (without_unique h h2 h' _ W2 (conj L W)).
Qed.
Print Assumptions C58_constructed.
(** a second Trim finds nothing to do *)
Theorem C58_twice : forall H h hs leaves rows t flags flags' h', tree_of H h hs leaves rows (t_Root t) -> t_Depth t = 1 + zlen rows ->
  nth 0 flags x00 = x00 /\ nth 1 flags x00 = x00 -> Trim t flags h = Some (Ok tt, h') -> Trim t flags' h' = Some (Ok tt, h').
Proof.
  intros H h hs leaves rows t flags flags' h' T D Q E. destruct (proj2 (C58_trim _ _ _ _ _ _ flags T D) Q) as (h2 & E2 & L & W). assert (h2 = h') as -> by congruence.
  rewrite (trim_unfold t rows flags' h' D). destruct rows as [|r1 rows]; [reflexivity|]. set (rs := r1 :: rows) in *.
  assert (N : n_LeftChild (deref h' (t_Root t)) = None).
  { destruct T as (F & Ra & _). destruct (in_dec Nat.eq_dec (t_Root t) (concat rs)) as [I|I]; [rewrite (proj1 (W _) I); reflexivity|]. exfalso. apply I.
    clear - Ra. assert (G : forall low rws root, rows_above H h low rws root -> rws <> [] -> In root (concat rws)).
    { induction 1 as [|low up rest root L A R IH]; [congruence|]. intros _. cbn [concat]. destruct rest; [inversion R; subst; left; reflexivity|]. apply in_app_iff. right. apply IH. discriminate. }
    apply (G _ _ _ Ra). discriminate. }
  cbn [length rs]. destruct (length rows); [rewrite trim_2|rewrite trim_3]; rewrite N; reflexivity.
Qed.
Print Assumptions C58_twice.
(** _TrimNode at the root with another index looks at one other pair of flags: number
    index * 2^(Depth-1) and the next; beyond the end it raises IndexError and changes nothing *)
Theorem C58_node : forall H h hs leaves rows t index flags, tree_of H h hs leaves rows (t_Root t) -> t_Depth t = 1 + zlen rows -> rows <> [] -> 0 <= index ->
  let i := index * 2 ^ (t_Depth t - 1) in
  let f k := nth_error flags (Z.to_nat k) in
  (f i = None \/ f i = Some x00 /\ f (i + 1) = None ->
     trim_node (Z.to_nat (t_Depth t)) (t_Root t) index flags h = Some (Raise IndexError, h)) /\
  ((exists b, f i = Some b /\ b <> x00) \/ f i = Some x00 /\ (exists b, f (i + 1) = Some b /\ b <> x00) ->
     trim_node (Z.to_nat (t_Depth t)) (t_Root t) index flags h = Some (Ok tt, h)) /\
  (f i = Some x00 /\ f (i + 1) = Some x00 ->
     exists h', trim_node (Z.to_nat (t_Depth t)) (t_Root t) index flags h = Some (Ok tt, h') /\ without_children h h' (concat rows)).
Proof.
  intros H h hs leaves rows t index flags T D N I i f. assert (Nz : length rows <> 0%nat) by (destruct rows; [congruence|discriminate]).
  assert (Ei : index * 2 ^ Z.of_nat (length rows) = i). { unfold i. rewrite D. unfold zlen. replace (1 + Z.of_nat (length rows) - 1) with (Z.of_nat (length rows)) by lia. reflexivity. }
  replace (Z.to_nat (t_Depth t)) with (S (length rows)) by (rewrite D; unfold zlen; lia).
  assert (I0 : 0 <= i) by (unfold i; nia).
  assert (FA : forall k, 0 <= k -> flag_at flags k = match f k with Some b => Ok b | None => Raise IndexError end).
  { intros k K. unfold flag_at, f. destruct (Z.ltb_spec k 0); [lia|]. destruct (Z.leb_spec 0 k); [|lia]. cbn [andb]. destruct (nth_error flags (Z.to_nat k)) as [b|] eqn:E.
    - assert (Lk : (Z.to_nat k < length flags)%nat) by (apply nth_error_Some; congruence). destruct (Z.ltb_spec k (zlen flags)); unfold zlen in *; [|lia]. f_equal. apply nth_error_nth, E.
    - apply nth_error_None in E. destruct (Z.ltb_spec k (zlen flags)); unfold zlen in *; [lia|reflexivity]. }
  assert (Look : look flags i = match f i with None => Raise IndexError | Some a => if negb (b2z a =? 0) then Ok false else match f (i + 1) with None => Raise IndexError | Some b => Ok (b2z b =? 0) end end).
  { unfold look. rewrite FA by exact I0. destruct (f i) as [a|]; cbn [rbind]; [|reflexivity]. destruct (negb (b2z a =? 0)); [reflexivity|]. rewrite FA by lia. destruct (f (i + 1)); reflexivity. }
  assert (NZ : forall b, b <> x00 -> (b2z b =? 0) = false). { intros b Nb. destruct (b2z b =? 0) eqn:E; [apply b2z_zero in E; contradiction|reflexivity]. }
  pose proof (tree_tall _ _ _ _ _ _ T) as Ta. split; [|split].
  - intros Q. apply (trim_raise h (lev rows) _ _ Ta); [exact Nz|]. rewrite Ei, Look. destruct Q as [->|[-> ->]]; reflexivity.
  - intros Q. apply (trim_keep h (lev rows) _ _ Ta); [exact Nz|]. rewrite Ei, Look. destruct Q as [(b & -> & Nb)|(-> & b & -> & Nb)]; [rewrite (NZ b Nb)|cbn [negb]; change (b2z x00 =? 0) with true; cbn [negb]; rewrite (NZ b Nb)]; reflexivity.
  - intros [Q1 Q2]. apply (tree_clear H h hs leaves rows _ index flags T). rewrite Ei, Look, Q1, Q2. reflexivity.
Qed.
Print Assumptions C58_node.
Example C58_example : let hs := [leaf x01; leaf x02; leaf x03; leaf x04; leaf x05] in
  match new_MerkleTree real_hashes hs [] with
  | Some (Ok t, h) =>
      Trim t [x00; x01] h = Some (Ok tt, h) /\ Trim t [x01; x00; x00; x00; x00; x00; x00; x00] h = Some (Ok tt, h) /\
      (exists h', Trim t [x00; x00; x01; x01; x01; x01; x01; x01] h = Some (Ok tt, h') /\ Trim t [] h = Some (Ok tt, h') /\ h' <> h) /\
      trim_node 4 (t_Root t) 1 [x00; x00; x01] h = Some (Raise IndexError, h)
  | _ => False
  end.
Proof.
  intros hs. destruct (new_tree real_hashes hs [] real_hashes_ok ltac:(discriminate) ltac:(reflexivity)) as (t & h & rows & r & E & T & D & _). rewrite E.
  assert (X : match new_MerkleTree real_hashes hs [] with Some (Ok t', h') => t_Depth t' = 4 /\ n_LeftChild (deref h' (t_Root t')) <> None | _ => False end) by (vm_compute; split; [reflexivity|discriminate]).
  rewrite E in X. destruct X as [X1 X2].
  split; [apply (C58_trim _ _ _ _ _ _ _ T D); right; discriminate|]. split; [apply (C58_trim _ _ _ _ _ _ _ T D); left; discriminate|]. split.
  - destruct (C58_constructed real_hashes hs [] t h [x00; x00; x01; x01; x01; x01; x01; x01] real_hashes_ok ltac:(reflexivity) E) as (h' & E1 & _ & Or & Same). exists h'. split; [exact E1|]. split; [rewrite (Same [] eq_refl); exact E1|].
    destruct (proj2 (C58_trim _ _ _ _ _ _ [x00; x00; x01; x01; x01; x01; x01; x01] T D) (conj eq_refl eq_refl)) as (h2 & E2 & L & W). assert (h2 = h') as -> by congruence. clear E E1 E2 Same.
    intros ->. destruct (in_dec Nat.eq_dec (t_Root t) (concat rows)) as [I|I].
    + pose proof (f_equal n_LeftChild (proj1 (W _) I)) as Y. cbn in Y. congruence.
    + destruct T as (F & Ra & _). destruct (rows_root_in _ _ _ _ _ Ra) as (Ir & _). apply in_app_iff in Ir as [Ir|Ir]; [|contradiction]. apply In_nth_error in Ir as [i Ei]. destruct (nth_Forall2 _ _ _ F i _ Ei) as (u & _ & _ & Y & _). congruence.
  - assert (Nr : rows <> []). { intros ->. rewrite X1 in D. discriminate. } pose proof (proj1 (C58_node _ _ _ _ _ _ 1 [x00; x00; x01] T D Nr ltac:(lia))) as Y. rewrite X1 in Y. apply Y. left. reflexivity.
Qed.

(** ** C59 Merkle roots bind lists of equal length but not the length *)
Theorem C59_binding : forall H l m r, hash_ok H -> l <> [] -> zlen l < 2 ^ 53 - 1 -> Forall is_UInt256 l -> Forall is_UInt256 m -> length l = length m ->
  ComputeRoot H l = Some (Ok r) -> ComputeRoot H m = Some (Ok r) -> l = m \/ collision H.
Proof.
  intros H l m r O N B Wl Wm L El Em. assert (Nm : m <> []) by (intros ->; destruct l; [congruence|discriminate]).
  apply C55_root in El; [|assumption..]. apply C55_root in Em; [|assumption|assumption|unfold zlen in *; lia]. exact (root_binds H l r El m Em L Wl Wm).
Qed.
Print Assumptions C59_binding.
Theorem C59_odd_repeat : forall H l a, hash_ok H -> l <> [] -> Nat.even (length l) = true -> zlen l < 2 ^ 53 - 3 ->
  ComputeRoot H (l ++ [a]) = ComputeRoot H (l ++ [a; a]).
Proof.
  intros H l a O N Ev B. assert (Z : forall k : list uint, zlen (l ++ k) = zlen l + zlen k) by (intros k; unfold zlen; rewrite app_length; lia).
  destruct (C55_total H (l ++ [a]) O) as (r & E & M & _); [destruct l; discriminate|rewrite Z; change (zlen [a]) with 1; lia|]. rewrite E. symmetry.
  apply C55_root; [exact O|destruct l; discriminate|rewrite Z; change (zlen [a; a]) with 2; lia|]. apply root_repeat; assumption.
Qed.
Print Assumptions C59_odd_repeat.
(** the hashes of any inner row, passed as leaves, have the same root *)
Theorem C59_inner_row : forall H l l', hash_ok H -> (2 <= length l)%nat -> zlen l < 2 ^ 53 - 1 -> pair_up H l l' ->
  (length l' < length l)%nat /\ ComputeRoot H l' = ComputeRoot H l.
Proof.
  intros H l l' O L B P. pose proof (pair_up_length H l l' P) as Ll. pose proof (Nat.div2_odd (S (length l))) as D. rewrite <- Ll in D.
  assert (Lt : (length l' < length l)%nat) by (destruct (Nat.odd (S (length l))) eqn:Od; cbn [Nat.b2n] in D; [lia|]; destruct (Nat.eq_dec (length l) 2) as [E|]; [rewrite E in Od; discriminate|lia]).
  split; [exact Lt|]. assert (Nl : l <> []) by (intros ->; cbn in L; lia). assert (Nl' : l' <> []) by (intros ->; destruct (Nat.odd (S (length l))); cbn in D; lia).
  destruct (C55_total H l' O Nl') as (r & E & M & _); [unfold zlen in *; lia|]. rewrite E. symmetry. apply C55_root; try assumption. exact (mr_up H l l' r L P M).
Qed.
Print Assumptions C59_inner_row.
(** every list of at least two has such a row *)
Theorem C59_inner_row_exists : forall H l, hash_ok H -> exists l', pair_up H l l'.
Proof. intros H l O. exact (pair_up_exists H O l). Qed.
Print Assumptions C59_inner_row_exists.
Example C59_example : Forall is_UInt256 leaves3 /\ Forall is_UInt256 (leaves3 ++ [leaf x03]) /\ leaves3 <> leaves3 ++ [leaf x03] /\
  ComputeRoot real_hashes leaves3 = ComputeRoot real_hashes (leaves3 ++ [leaf x03]) /\
  ComputeRoot real_hashes [leaf x01; leaf x02] <> ComputeRoot real_hashes [leaf x02; leaf x01].
Proof.
  split; [repeat (constructor; [apply leaf_wf|]); constructor|]. split; [repeat (constructor; [apply leaf_wf|]); constructor|]. split; [discriminate|]. split.
  - exact (C59_odd_repeat real_hashes [leaf x01; leaf x02] (leaf x03) real_hashes_ok ltac:(discriminate) eq_refl ltac:(reflexivity)).
  - vm_compute. discriminate.
Qed.
