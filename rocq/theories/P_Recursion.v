(** * P_Recursion: C114 (how deep the recursion goes, and Python's recursion limit) *)
From Coq Require Import Lia ZifyBool ZifyNat.
From Verif Require Import M_Py M_Hash M_UInt M_Helper M_ECCurve M_Merkle M_Recursion S_IO S_IO2 S_EC S_Merkle S_Recursion L_Field L_Merkle L_Merkle2 L_Recursion P_Merkle.

(** ** GCD *)
(** GCD needs as many frames as Euclid's algorithm has pairs: with that many it returns what C64
    says, with fewer it raises RecursionError *)
Theorem C114_gcd : forall a b, exists n, euclid a b n /\ forall frames,
  ((n <= frames)%nat -> exists r, GCD_frames frames a b = Fits r /\ GCD a b = Some r) /\
  ((frames < n)%nat -> GCD_frames frames a b = RecursionError).
Proof.
  intros a b. destruct (euclid_exists a b) as (n & E). exists n. split; [exact E|]. intros f.
  split; intros F; [exact (GCD_frames_ok _ _ _ _ E F)|exact (GCD_frames_few _ _ _ E _ F)].
Qed.
Print Assumptions C114_gcd.
(** n pairs take a first number of at least the n-th Fibonacci number, and the n-th and the next
    Fibonacci number take exactly n *)
Theorem C114_lame : forall n f f', (2 <= n)%nat -> fibonacci n f -> fibonacci (S n) f' ->
  euclid f f' n /\ (forall a b, euclid a b n -> f <= Z.abs a).
Proof.
  intros n f f' N Ff Ff'. rewrite (fib_eq _ _ Ff), (fib_eq _ _ Ff'). split; [apply fib_euclid, N|]. intros a b E. exact (lame n a b n (le_n n) E N).
Qed.
Print Assumptions C114_lame.
(** With Python's default limit of 1000 and one frame for the caller: every first number below
    2^693 in absolute value is fine, whatever the second *)
Theorem C114_default_limit : forall a b, Z.abs a < 2 ^ 693 -> exists r, GCD_frames 999 a b = Fits r /\ GCD a b = Some r.
Proof.
  intros a b A. destruct (euclid_exists a b) as (n & E). apply (GCD_frames_ok a b n); [exact E|]. apply (steps_below 999 (2 ^ 693) a b); [exact fib_1000|lia|exact A|exact E].
Qed.
Print Assumptions C114_default_limit.
(** ... but there are coprime numbers of 695 bits for which it raises RecursionError: inverting the
    first modulo the second is impossible although the inverse exists *)
Theorem C114_too_deep : exists a m, 0 < a < m /\ m < 2 ^ 695 /\ Z.gcd a m = 1 /\ GCD_frames 999 a m = RecursionError /\ modinv_frames 1000 a m = RecursionError.
Proof.
  assert (G : forall n, Z.gcd (fib n) (fib (S n)) = 1).
  { induction n as [|n IH]; [reflexivity|]. rewrite fib_SS.
    replace (fib n + fib (S n)) with (fib n + 1 * fib (S n)) by lia. rewrite Z.gcd_add_mult_diag_r, Z.gcd_comm. exact IH. }
  exists (fib 1000), (fib 1001).
  assert (R : GCD_frames 999 (fib 1000) (fib 1001) = RecursionError) by (apply (GCD_frames_few _ _ 1000); [apply fib_euclid; lia|lia]).
  assert (1 <= fib 1000) by (apply fib_pos; lia). assert (1 <= fib 999) by (apply fib_pos; lia). pose proof (fib_SS 999).
  split; [lia|]. split; [exact fib_1001|]. split; [apply G|]. split; [exact R|].
  unfold modinv_frames. cbn [enter]. rewrite R. reflexivity.
Qed.
Print Assumptions C114_too_deep.

(** ** field division *)
(** exactly: five frames more than GCD *)
Theorem C114_division : forall p a b n frames, euclid b p n ->
  ((n + 5 <= frames)%nat -> fdiv_frames frames p a b = Fits (fdiv p a b)) /\
  ((frames < n + 5)%nat -> fdiv_frames frames p a b = RecursionError).
Proof.
  intros p a b n frames E. pose proof (euclid_pos _ _ _ E) as Np. split; intros F.
  - do 5 (destruct frames as [|frames]; [lia|]). unfold fdiv_frames, enter, need, modinv_frames.
    destruct (GCD_frames_ok b p n frames E ltac:(lia)) as ([[d c] e] & R & G). cbn [enter]. rewrite R. cbn [lbind].
    replace (Nat.leb 1 (S (S (S (S frames))))) with true by reflexivity. replace (Nat.leb 1 (S (S (S frames)))) with true by reflexivity.
    replace (Nat.leb 3 (S (S (S frames)))) with true by reflexivity.
    unfold fdiv, finverse, modinv. rewrite G. reflexivity.
  - do 5 (destruct frames as [|frames]; [reflexivity|]). unfold fdiv_frames, enter, need, modinv_frames. cbn [enter].
    rewrite (GCD_frames_few b p n E frames) by lia. reflexivity.
Qed.
Print Assumptions C114_division.
(** 375 frames are enough to divide in every field by every value of at most 256 bits, so for
    every curve the package knows; 374 are not always *)
Theorem C114_division_256 : (forall p a b frames, Z.abs b < 2 ^ 256 -> (375 <= frames)%nat -> fdiv_frames frames p a b = Fits (fdiv p a b)) /\
  (exists p a b, 0 < b < 2 ^ 256 /\ fdiv_frames 374 p a b = RecursionError).
Proof.
  split.
  - intros p a b frames B F. destruct (euclid_exists b p) as (n & E). apply (C114_division p a b n frames E).
    pose proof (steps_below 370 (2 ^ 256) b p n fib_371 ltac:(lia) B E). lia.
  - exists (fib 371), 1, (fib 370). split; [split; [apply Z.lt_le_trans with 1; [lia|apply fib_pos; lia]|exact fib_370]|].
    apply (proj2 (C114_division _ _ _ 370 374 (fib_euclid 370 ltac:(lia)))). lia.
Qed.
Print Assumptions C114_division_256.

(** ** Merkle trees *)
Lemma rows_log H h hs leaves rows root : tree_of H h hs leaves rows root -> length rows = Nat.log2_up (length hs).
Proof.
  intros (F & R & _). rewrite <- (Forall2_len _ _ _ F). destruct (rows_count _ _ _ _ _ R) as [U [[-> E]|[N E]]]; [rewrite E; reflexivity|].
  symmetry. destruct rows as [|x rows]; [congruence|]. replace (length (x :: rows) - 1)%nat with (length rows) in E by (cbn; lia). cbn [length] in *. apply Nat.log2_up_unique; [lia|]. rewrite Nat.pred_succ. auto.
Qed.
Lemma log_le n : (1 <= n)%nat -> (n <= 2 ^ Nat.log2_up n)%nat.
Proof. intros N. destruct (Nat.eq_dec n 1) as [->|M]; [cbn; lia|]. apply Nat.log2_up_spec. lia. Qed.
Lemma log_lt n : (2 <= n)%nat -> (2 ^ (Nat.log2_up n - 1) < n)%nat.
Proof. intros N. replace (Nat.log2_up n - 1)%nat with (Nat.pred (Nat.log2_up n)) by lia. apply Nat.log2_up_spec. lia. Qed.
Lemma log_pos n : (2 <= n)%nat -> (1 <= Nat.log2_up n)%nat.
Proof. intros N. apply (Nat.log2_up_pos n). lia. Qed.

(** A tree over n >= 2 hashes needs exactly ceil(log2 n) + 4 frames (3 for one hash) *)
Theorem C114_tree : forall H hs h0 frames, hash_ok H -> hs <> [] -> zlen hs < 2 ^ 53 - 1 ->
  let needed := if Nat.eqb (length hs) 1 then 3%nat else (Nat.log2_up (length hs) + 4)%nat in
  ((needed <= frames)%nat -> exists r, new_MerkleTree_frames frames H hs h0 = Fits r /\ new_MerkleTree H hs h0 = Some r) /\
  ((frames < needed)%nat -> new_MerkleTree_frames frames H hs h0 = RecursionError).
Proof.
  intros H hs h0 frames O Ne Bd needed. destruct (new_tree H hs h0 O Ne Bd) as (t & h & rows & r & E & _).
  assert (Lh : (1 <= length hs)%nat) by (destruct hs; [congruence|cbn; lia]).
  pose proof E as E0. unfold new_MerkleTree in E. set (leaves := seq (length h0) (length hs)) in *. set (hl := h0 ++ map (fun u => new_node (Some u)) hs) in *.
  assert (Ll : @length addr leaves = length hs) by apply seq_length.
  assert (Zl : @zlen addr leaves < 2 ^ 53 - 1) by (unfold zlen in *; rewrite Ll; exact Bd).
  destruct (build (length hs) H leaves hl) as [[[root|e] h1]|] eqn:B; try discriminate.
  assert (C : forall f, (if hs then 1 else 2)%nat = 2%nat /\ new_MerkleTree_frames (S f) H hs h0 = need 2 f (lbind (build_frames f H leaves hl) (fun '(r, h') =>
    match r with
    | Raise e => Fits (Raise e, h')
    | Ok root => match left_depth (length h') h' root 1 with
                 | None => Fits (Raise AttributeError, h')
                 | Some depth => Fits (Ok (mkTree root depth), h')
                 end
    end))). { intros f. destruct hs; [congruence|]. split; reflexivity. }
  split.
  - intros F. exists (Ok t, h). split; [|exact E0].
    destruct frames as [|f]; [unfold needed in F; destruct (Nat.eqb _ _); lia|]. rewrite (proj2 (C f)). unfold need.
    replace (Nat.leb 2 f) with true by (unfold needed in F; destruct (Nat.eqb _ _); lia).
    rewrite (build_frames_fits H (Nat.log2_up (length hs)) (length hs) f leaves hl (Ok root, h1)); [|rewrite Ll; apply log_le, Lh|exact Zl|exact B|].
    + cbn [lbind]. destruct (left_depth (length h1) h1 root 1); [|discriminate]. injection E as <- <-. reflexivity.
    + rewrite Ll. unfold needed in F. destruct (Nat.eqb_spec (length hs) 1) as [E1|N1]; [rewrite E1; cbn [Nat.leb]; lia|]. replace (Nat.leb (length hs) 1) with false by lia. lia.
  - intros F. destruct frames as [|f]; [reflexivity|]. rewrite (proj2 (C f)). unfold need. destruct (Nat.leb_spec 2 f) as [L|L]; [|reflexivity].
    unfold needed in F. destruct (Nat.eqb_spec (length hs) 1) as [E1|N1]; [lia|]. pose proof (log_pos (length hs) ltac:(lia)).
    rewrite (build_frames_few H f (length hs) (Nat.log2_up (length hs) - 1) leaves hl root h1); [reflexivity|rewrite Ll; apply log_lt; lia|exact Zl|exact B|lia].
Qed.
Print Assumptions C114_tree.
(** ComputeRoot: one more, or one frame in all for a single hash *)
Theorem C114_root : forall H hs frames, hash_ok H -> hs <> [] -> zlen hs < 2 ^ 53 - 1 ->
  let needed := if Nat.eqb (length hs) 1 then 1%nat else (Nat.log2_up (length hs) + 5)%nat in
  ((needed <= frames)%nat -> exists r, ComputeRoot_frames frames H hs = Fits r /\ ComputeRoot H hs = Some r) /\
  ((frames < needed)%nat -> ComputeRoot_frames frames H hs = RecursionError).
Proof.
  intros H hs frames O Ne Bd needed. destruct (C114_tree H hs [] (Nat.pred frames) O Ne Bd) as [Ft Fw].
  destruct hs as [|x [|y l]]; [congruence| |].
  - unfold needed. cbn [length Nat.eqb]. split; intros F; (destruct frames as [|f]; [try lia; try reflexivity|try lia]). exists (Ok x). split; reflexivity.
  - set (hs := x :: y :: l) in *. assert (N1 : Nat.eqb (length hs) 1 = false) by reflexivity. unfold needed. rewrite N1 in *. split; intros F; (destruct frames as [|f]; [try lia; try reflexivity|]).
    + destruct (Ft ltac:(cbn [Nat.pred]; lia)) as ([r h] & E & E'). cbn [Nat.pred] in E. unfold ComputeRoot_frames, ComputeRoot. cbn [enter]. unfold hs at 1 3. cbv iota. fold hs.
      rewrite E, E'. cbn [lbind]. destruct r as [t|e]; eexists; (split; reflexivity).
    + cbn [Nat.pred] in Fw. unfold ComputeRoot_frames. cbn [enter]. unfold hs at 1. cbv iota. fold hs. rewrite Fw by lia. reflexivity.
Qed.
Print Assumptions C114_root.
(** reading the leaves of a tree: ceil(log2 n) + 3 *)
Theorem C114_search : forall H hs h0 t h frames, hash_ok H -> zlen hs < 2 ^ 53 - 1 -> new_MerkleTree H hs h0 = Some (Ok t, h) ->
  let needed := (Nat.log2_up (length hs) + 3)%nat in
  ((needed <= frames)%nat -> exists r, ToHashArray_frames frames t h = Fits r /\ ToHashArray t h = Some r) /\
  ((frames < needed)%nat -> ToHashArray_frames frames t h = RecursionError).
Proof.
  intros H hs h0 t h frames O Bd E needed. assert (Ne : hs <> []) by (intros ->; discriminate).
  destruct (new_tree H hs h0 O Ne Bd) as (t' & h' & rows & r & E' & T & _). rewrite E in E'. injection E' as <- <-.
  destruct (tree_sees _ _ _ _ _ _ T) as (L & SL & _). pose proof (rows_log _ _ _ _ _ _ T) as Lr. pose proof (rows_le_heap _ _ _ _ _ _ T) as Lh. unfold needed. split; intros F.
  - destruct frames as [|f]; [lia|]. exists (Ok (fold_left set_add L [])). unfold ToHashArray_frames, ToHashArray. cbn [enter].
    split; [apply (dfs_frames_fits _ _ _ _ SL); lia|exact (dfs_spec _ _ _ _ SL _ [] Lh)].
  - destruct frames as [|f]; [reflexivity|]. unfold ToHashArray_frames. cbn [enter]. apply (dfs_frames_few _ _ _ _ SL). lia.
Qed.
Print Assumptions C114_search.
(** Trim: one more than the deeper of logging and ceil(log2 n) *)
Theorem C114_trim : forall H hs h0 t h flags logging frames, hash_ok H -> zlen hs < 2 ^ 53 - 1 -> new_MerkleTree H hs h0 = Some (Ok t, h) ->
  let needed := (1 + Nat.max logging (Nat.max 1 (Nat.log2_up (length hs))))%nat in
  ((needed <= frames)%nat -> exists r, Trim_frames logging frames t flags h = Fits r /\ Trim t flags h = Some r) /\
  ((frames < needed)%nat -> Trim_frames logging frames t flags h = RecursionError).
Proof.
  intros H hs h0 t h flags logging frames O Bd E needed. assert (Ne : hs <> []) by (intros ->; discriminate).
  destruct (new_tree H hs h0 O Ne Bd) as (t' & h' & rows & r & E' & T & D & _). rewrite E in E'. injection E' as <- <-.
  pose proof (rows_log _ _ _ _ _ _ T) as Lr. assert (Ed : Z.to_nat (t_Depth t) = S (length rows)) by (rewrite D; unfold zlen; lia).
  destruct (C58_constructed H hs h0 t h flags O Bd E) as (h2 & Et & _). unfold needed. rewrite <- Lr. split; intros F.
  - destruct frames as [|f]; [lia|]. exists (Ok tt, h2). split; [|exact Et]. unfold Trim_frames, Trim in *. cbn [enter]. unfold need. replace (Nat.leb logging f) with true by lia.
    apply trim_frames_fits; [lia|lia|exact Et].
  - destruct frames as [|f]; [reflexivity|]. unfold Trim_frames. cbn [enter]. unfold need. destruct (Nat.leb_spec logging f) as [L|L]; [|reflexivity].
    rewrite Ed. apply (trim_frames_few h (lev rows) _ _ (tree_tall _ _ _ _ _ _ T)). lia.
Qed.
Print Assumptions C114_trim.
(** So 58 frames are enough for every list of hashes (Python's default limit is 1000), if logging
    takes at most 57 *)
Theorem C114_trees_fit : forall H hs, hash_ok H -> hs <> [] -> zlen hs < 2 ^ 53 - 1 ->
  (exists r, ComputeRoot_frames 58 H hs = Fits (Ok r) /\ merkle_root H hs r) /\
  forall h0, exists t h, new_MerkleTree_frames 58 H hs h0 = Fits (Ok t, h) /\ new_MerkleTree H hs h0 = Some (Ok t, h) /\
    (exists r, ToHashArray_frames 58 t h = Fits r /\ ToHashArray t h = Some r) /\
    forall logging flags, (logging <= 57)%nat -> exists r, Trim_frames logging 58 t flags h = Fits r /\ Trim t flags h = Some r.
Proof.
  intros H hs O Ne Bd. assert (Lg : (Nat.log2_up (length hs) <= 53)%nat).
  { destruct (Nat.le_gt_cases (Nat.log2_up (length hs)) 53) as [L|L]; [exact L|]. exfalso.
    assert (Two : (2 <= length hs)%nat). { destruct (length hs) as [|[|n]]; [cbn in L; lia|cbn in L; lia|lia]. }
    pose proof (log_lt _ Two) as P. assert (Q : (2 ^ 53 <= 2 ^ (Nat.log2_up (length hs) - 1))%nat) by (apply Nat.pow_le_mono_r; lia).
    apply inj_le in Q. rewrite Nat2Z.inj_pow in Q. apply inj_lt in P. unfold zlen in Bd. change (Z.of_nat 2 ^ Z.of_nat 53) with (2 ^ 53) in Q. lia. }
  split.
  - destruct (C55_total H hs O Ne Bd) as (r & E & M & _). exists r. split; [|exact M].
    destruct (proj1 (C114_root H hs 58 O Ne Bd)) as (r' & F & E'); [destruct (Nat.eqb _ _); lia|]. congruence.
  - intros h0. destruct (new_tree H hs h0 O Ne Bd) as (t & h & rows & r & E & _). exists t, h.
    destruct (proj1 (C114_tree H hs h0 58 O Ne Bd)) as (r' & F & E'); [destruct (Nat.eqb _ _); lia|]. split; [congruence|]. split; [exact E|].
    split; [apply (C114_search H hs h0 t h 58 O Bd E); lia|]. intros logging flags Lo. apply (C114_trim H hs h0 t h flags logging 58 O Bd E). lia.
Qed.
Print Assumptions C114_trees_fit.

Definition flat : hashes := mkHashes (fun m => firstn 32 (m ++ repeat x00 32)) (fun m => firstn 20 (m ++ repeat x00 20)).
Example C114_example : euclid 240 46 7 /\ GCD_frames 7 240 46 = Fits (2, -9, 47) /\ GCD_frames 6 240 46 = RecursionError /\
  fdiv_frames 9 7 3 5 = Fits 2 /\ (2 * 5) mod 7 = 3 /\ fdiv_frames 8 7 3 5 = RecursionError /\
  fibonacci 7 13 /\ fibonacci 8 21 /\ hash_ok flat /\
  (exists r, ComputeRoot_frames 7 flat leaves3 = Fits (Ok r) /\ ComputeRoot flat leaves3 = Some (Ok r)) /\ ComputeRoot_frames 6 flat leaves3 = RecursionError.
Proof.
  split. { repeat (apply euclid_step; [vm_compute; discriminate|]; cbv [Z.modulo Z.div_eucl]; simpl). constructor. }
  split; [reflexivity|]. split; [reflexivity|]. split; [reflexivity|]. split; [reflexivity|]. split; [reflexivity|].
  split; [exact (fib_is 7)|]. split; [exact (fib_is 8)|].
  split. { split; intros m; unfold flat; cbn [sha256 ripemd160]; rewrite firstn_length, app_length, repeat_length; lia. }
  split; [|vm_compute; reflexivity]. eexists. split; vm_compute; reflexivity.
Qed.
Print Assumptions C114_example.
