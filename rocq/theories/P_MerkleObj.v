(** * P_MerkleObj: C115 (a Merkle tree and the UInt objects it was given) *)
From Coq Require Import ZArith Lia List Arith.
From Verif Require Import M_Py M_Hash M_UInt M_UIntHeap M_Merkle M_MerkleObj L_Bytes L_UInt S_IO S_IO2 S_UInt S_Merkle S_MerkleObj L_Merkle L_Merkle2 L_MerkleObj P_Merkle.
Import ListNotations.
Local Open Scope Z_scope.

(** What a program can have before it makes a tree. *)
Definition ready (ids : list nat) (s : mworld) : Prop :=
  ids <> [] /\ zlen ids < 2 ^ 53 - 1 /\ all_exist (mw_world s) ids /\ objects_ok (mw_world s) /\ nodes_ok s.

Theorem C115_tree : forall H ids s, hash_ok H -> ready ids s ->
  let w := mw_world s in
  exists t s1, onew_MerkleTree H ids s = Some (Ok t, s1) /\
    (* by value it is the tree of C55-C58 *)
    new_MerkleTree H (map (seen w) ids) (heap_now s) = Some (Ok t, heap_now s1) /\
    (* nothing the program had is changed *)
    (forall l, (l < length (cells w))%nat -> cell (mw_world s1) l = cell w l) /\
    (forall i, (i < length (objs w))%nat -> obj (mw_world s1) i = obj w i) /\
    (forall a, (a < length (mw_nodes s))%nat -> oderef s1 a = oderef s a) /\
    (* the leaves hold the very objects that were given *)
    (forall k i, nth_error ids k = Some i -> on_Hash (oderef s1 (length (mw_nodes s) + k)%nat) = Some i) /\
    (* every other node holds an object of its own on a bytearray of its own *)
    (forall a i, (length (mw_nodes s) + length ids <= a)%nat -> on_Hash (oderef s1 a) = Some i ->
       (length (objs w) <= i < length (objs (mw_world s1)))%nat /\
       exists l, o_data (obj (mw_world s1) i) = DCell l /\ (length (cells w) <= l < length (cells (mw_world s1)))%nat).
Proof.
  intros H ids s Hk (Ne & Bd & A & O & N) w. destruct (new_otree H ids s Hk Ne Bd O N A) as (t & s1 & E & E' & (G & O1 & N1 & B1 & I1 & I2) & _).
  exists t, s1. split; [exact E|]. split; [exact E'|]. split; [|split; [|split; [|split]]].
  - intros l L. destruct G as (c & o & Ec & _). unfold cell. rewrite Ec. apply app_nth1, L.
  - intros i L. exact (grows_obj _ _ _ G L).
  - intros a L. assert (Lb : (a < base_of ids s)%nat) by (unfold base_of; lia). pose proof (I1 a Lb) as K.
    assert (K' : on_Hash (oderef (with_leaves ids s) a) = on_Hash (oderef s a)). { unfold oderef, with_leaves. cbn [mw_nodes]. rewrite app_nth1 by exact L. reflexivity. }
    assert (Ls : map (seen w) ids <> []) by (destruct ids; [congruence|discriminate]).
    destruct (new_tree H (map (seen w) ids) (heap_now s) Hk Ls) as (t' & h & rows & r & E2 & _ & _ & _ & _ & F); [unfold zlen in *; rewrite map_length; exact Bd|].
    fold w in E'. rewrite E' in E2. assert (heap_now s1 = h) as Eh by congruence. rewrite <- Eh in F. specialize (F a). unfold heap_now at 1 in F. rewrite map_length in F. specialize (F L).
    rewrite !deref_now in F. rewrite K' in K. clear - F K. destruct (oderef s1 a), (oderef s a). unfold node_now in F. cbn in *. subst. injection F as _ -> -> ->. reflexivity.
  - intros k i Ek. assert (Lk : (k < length ids)%nat) by (apply nth_error_Some; congruence). rewrite I1 by (unfold base_of; lia). unfold oderef, with_leaves. cbn [mw_nodes].
    rewrite app_nth2 by lia. replace (length (mw_nodes s) + k - length (mw_nodes s))%nat with k by lia.
    rewrite (nth_error_nth (map (fun i => new_onode (Some i)) ids) k (new_onode None) (x := new_onode (Some i))); [reflexivity|]. rewrite nth_error_map, Ek. reflexivity.
  - intros a i La Ea. specialize (I2 a La). rewrite Ea in I2. exact I2.
Qed.
Print Assumptions C115_tree.

(** the root hash stays the root of the hashes as they were when the tree was made, whatever the program
    does to its own UInts and bytearrays afterwards *)
Theorem C115_root_stays : forall H ids s t s1 ops, hash_ok H -> ready ids s -> (2 <= length ids)%nat ->
  onew_MerkleTree H ids s = Some (Ok t, s1) -> Forall (spares (mw_world s) (mw_world s1)) ops ->
  exists i, on_Hash (oderef (later ops s1) (t_Root t)) = Some i /\ ~ In i ids /\
    merkle_root H (map (seen (mw_world s)) ids) (seen (mw_world (later ops s1)) i).
Proof.
  intros H ids s t s1 ops Hk (Ne & Bd & A & O & N) L2 E F. destruct (new_otree H ids s Hk Ne Bd O N A) as (t' & s1' & E1 & E' & (G & O1 & N1 & B1 & I1 & I2) & R).
  assert (t' = t) as -> by congruence. assert (s1' = s1) as -> by congruence. clear E1.
  assert (Ls : map (seen (mw_world s)) ids <> []) by (destruct ids; [congruence|discriminate]).
  destruct (new_tree H _ (heap_now s) Hk Ls) as (t' & h & rows & r & E2 & _ & _ & Er & Mr & _); [unfold zlen in *; rewrite map_length; exact Bd|].
  rewrite E' in E2. assert (t' = t) as -> by congruence. assert (h = heap_now s1) as -> by congruence. rewrite deref_now in Er. cbn [node_now n_Hash] in Er.
  specialize (I2 (t_Root t) (R L2)). destruct (on_Hash (oderef s1 (t_Root t))) as [i|] eqn:Ei; [|discriminate Er]. cbn [option_map] in Er.
  exists i. split; [exact Ei|]. split.
  - intros J. unfold all_exist in A. rewrite Forall_forall in A. apply A in J. destruct I2 as ([I2 _] & _). lia.
  - unfold later. cbn [mw_world]. rewrite (fresh_stays (mw_world s) (mw_world s1) _ i); [|apply holds_run; [exact F|]|exact I2].
    + assert (seen (mw_world s1) i = r) as -> by congruence. exact Mr.
    + split; [apply le_n|]. split; [apply le_n|]. split; reflexivity.
Qed.
Print Assumptions C115_root_stays.

(** so a tree whose leaves have been changed no longer fits them: if the root computed again from the
    same objects has the same bytes, then no object changed, or two strings collide *)
Lemma clean_root H l r : (2 <= length l)%nat -> zlen l < 2 ^ 53 - 1 -> hash_ok H -> merkle_root H l r ->
  ComputeRoot H (map (fun u => mkUInt CUInt256 (u_data u) (num LE (firstn 4 (u_data u)))) l) = Some (Ok r).
Proof.
  intros L B Hk M. apply C55_root; [exact Hk|destruct l; [cbn in L; lia|discriminate]|unfold zlen in *; rewrite map_length; exact B|].
  eapply root_data; [exact L| |exact M]. rewrite map_map. reflexivity.
Qed.
Lemma clean_uints l : Forall (fun u => length (u_data u) = 32%nat) l -> Forall is_UInt256 (map (fun u => mkUInt CUInt256 (u_data u) (num LE (firstn 4 (u_data u)))) l).
Proof. intros F. apply Forall_forall. intros u U. apply in_map_iff in U as (v & <- & V). rewrite Forall_forall in F. split; [reflexivity|]. split; [exact (F v V)|reflexivity]. Qed.
Lemma root_of_objects H ids s r : hash_ok H -> ready ids s -> (2 <= length ids)%nat -> oComputeRoot H ids s = Some r ->
  exists j s1, r = (Ok j, s1) /\ merkle_root H (map (seen (mw_world s)) ids) (seen (mw_world s1) j) /\ ~ In j ids.
Proof.
  intros Hk Rd L E. destruct (C115_tree H ids s Hk Rd) as (t & s1 & Et & _). pose proof (C115_root_stays H ids s t s1 [] Hk Rd L Et (Forall_nil _)) as (i & Ei & Ni & M).
  change (later [] s1) with (mkMW (mw_world s1) (mw_nodes s1)) in *. assert (mkMW (mw_world s1) (mw_nodes s1) = s1) as Es by (destruct s1; reflexivity). rewrite Es in *.
  unfold oComputeRoot in E. destruct ids as [|x [|y ids]]; cbn in L; try lia. rewrite Et, Ei in E. exists i, s1. split; [congruence|]. split; assumption.
Qed.
Theorem C115_detects : forall H ids s t s1 ops i j s3, hash_ok H -> ready ids s -> (2 <= length ids)%nat ->
  onew_MerkleTree H ids s = Some (Ok t, s1) -> Forall (spares (mw_world s) (mw_world s1)) ops ->
  let now := later ops s1 in
  (forall k, In k ids -> length (u_data (seen (mw_world s) k)) = 32%nat /\ length (u_data (seen (mw_world now) k)) = 32%nat) ->
  on_Hash (oderef now (t_Root t)) = Some i -> oComputeRoot H ids now = Some (Ok j, s3) ->
  u_data (seen (mw_world s3) j) = u_data (seen (mw_world now) i) ->
  (forall k, In k ids -> u_data (seen (mw_world now) k) = u_data (seen (mw_world s) k)) \/ collision H.
Proof.
  intros H ids s t s1 ops i j s3 Hk Rd L E F now W Ei Ej Eq. destruct (C115_root_stays H ids s t s1 ops Hk Rd L E F) as (i' & Ei' & _ & M).
  fold now in Ei', M. assert (i' = i) as -> by congruence. pose proof Rd as (Ne & Bd & A & O & N).
  destruct (new_otree H ids s Hk Ne Bd O N A) as (t' & s1' & E1 & _ & (G & O1 & N1 & _) & _). assert (s1' = s1) as -> by congruence.
  assert (Rn : ready ids now).
  { split; [exact Ne|]. split; [exact Bd|]. pose proof (objs_run ops (mw_world s1)) as Lr. pose proof (proj2 (grows_len _ _ G)) as Lg. split; [|split].
    - unfold all_exist in *. eapply Forall_impl; [|exact A]. intros k K. exact (Nat.lt_le_trans _ _ _ (Nat.lt_le_trans _ _ _ K Lg) Lr).
    - apply ok_run, O1.
    - unfold nodes_ok, now, later in *. cbn [mw_world mw_nodes] in *. eapply Forall_impl; [|exact N1]. intros n K. cbv beta in *. destruct (on_Hash n); [exact (Nat.lt_le_trans _ _ _ K Lr)|exact I]. }
  destruct (root_of_objects H ids now _ Hk Rn L Ej) as (j' & s3' & Er & M' & _). assert (j' = j) as -> by congruence. assert (s3' = s3) as -> by congruence.
  assert (L1 : forall w, (2 <= length (map (seen w) ids))%nat) by (intros w; rewrite map_length; exact L).
  assert (B1 : forall w, zlen (map (seen w) ids) < 2 ^ 53 - 1) by (intros w; unfold zlen in *; rewrite map_length; exact Bd).
  assert (Er' : seen (mw_world s3) j = seen (mw_world now) i) by (apply uint_data_inj; [exact (root_uint _ _ _ (L1 _) M')|exact (root_uint _ _ _ (L1 _) M)|exact Eq]).
  rewrite Er' in M'. pose proof (clean_root _ _ _ (L1 _) (B1 _) Hk M) as C. pose proof (clean_root _ _ _ (L1 _) (B1 _) Hk M') as C'.
  rewrite map_map in C, C'.
  match type of C' with ComputeRoot H ?l = _ => match type of C with ComputeRoot H ?m = Some (Ok ?r) =>
    assert (X : l <> [] -> zlen l < 2 ^ 53 - 1 -> Forall is_UInt256 l -> Forall is_UInt256 m -> length l = length m -> l = m \/ collision H)
      by (intros X1 X2 X3 X4 X5; exact (C59_binding H l m r Hk X1 X2 X3 X4 X5 C' C)) end end.
  destruct X as [K|K]; [| | | | |left|right; exact K].
  - destruct ids; [congruence|discriminate].
  - unfold zlen in *. rewrite map_length. exact Bd.
  - rewrite <- (map_map (seen (mw_world now)) (fun u => mkUInt CUInt256 (u_data u) (num LE (firstn 4 (u_data u))))). apply clean_uints, Forall_forall. intros u U. apply in_map_iff in U as (k & <- & K). apply (W k K).
  - rewrite <- (map_map (seen (mw_world s)) (fun u => mkUInt CUInt256 (u_data u) (num LE (firstn 4 (u_data u))))). apply clean_uints, Forall_forall. intros u U. apply in_map_iff in U as (k & <- & K). apply (W k K).
  - rewrite !map_length. reflexivity.
  - intros k Ik. apply (f_equal (map u_data)) in K. rewrite !map_map in K. cbn [u_data] in K. clear - K Ik. induction ids as [|x ids IH]; [destruct Ik|]. cbn in K. injection K as K1 K2. destruct Ik as [->|Ik]; auto.
Qed.
Print Assumptions C115_detects.

(** ToHashArray returns leaf objects, one of each kind, where two are of the same kind when their bytes
    are the same now and so were the first four bytes when they were made (the cached hash) *)
Lemma oset_add_spec w hs i : forall j, In j (oset_add w hs i) -> In j hs \/ j = i.
Proof. intros j. unfold oset_add. destruct (existsb _ hs); [auto|]. rewrite in_app_iff. cbn. intuition congruence. Qed.
Lemma uint_eq_data u v : uint_eq u (Some v) = true <-> u_data u = u_data v.
Proof. unfold uint_eq. destruct (list_eq_dec Byte.byte_eq_dec (u_data u) (u_data v)); split; congruence. Qed.
Lemma key_dec w j i : ((uint_hash (seen w j) =? uint_hash (seen w i)) && uint_eq (seen w j) (Some (seen w i)))%bool = true <-> same_key w j i.
Proof. rewrite Bool.andb_true_iff, Z.eqb_eq, uint_eq_data. unfold same_key. tauto. Qed.
Definition keys_differ (w : world) (out : list nat) : Prop :=
  forall x y a b, nth_error out x = Some a -> nth_error out y = Some b -> same_key w a b -> x = y.
Lemma key_sym w a b : same_key w a b -> same_key w b a.
Proof. unfold same_key. intuition congruence. Qed.
Lemma oset_add_keys w hs i : keys_differ w hs -> keys_differ w (oset_add w hs i).
Proof.
  intros K. unfold oset_add. destruct (existsb _ hs) eqn:E; [exact K|].
  assert (Nk : forall a, In a hs -> ~ same_key w a i).
  { intros a Ia Ka. apply key_dec in Ka. apply Bool.not_true_iff_false in E. apply E. apply existsb_exists. eauto. }
  intros x y a b Ex Ey Kab.
  assert (P : forall z c, nth_error (hs ++ [i]) z = Some c -> nth_error hs z = Some c \/ z = length hs /\ c = i).
  { intros z c Ez. destruct (Nat.lt_ge_cases z (length hs)) as [L|L]; [left; rewrite nth_error_app1 in Ez by exact L; exact Ez|]. right.
    rewrite nth_error_app2 in Ez by exact L. destruct (z - length hs)%nat as [|[|m]] eqn:Em; cbn in Ez; [split; [lia|congruence]|discriminate|discriminate]. }
  destruct (P x a Ex) as [Px|[-> ->]], (P y b Ey) as [Py|[-> ->]].
  - exact (K x y a b Px Py Kab).
  - destruct (Nk a (nth_error_In _ _ Px) Kab).
  - destruct (Nk b (nth_error_In _ _ Py) (key_sym _ _ _ Kab)).
  - reflexivity.
Qed.
Lemma oset_add_has w hs i : exists k, In k (oset_add w hs i) /\ same_key w k i.
Proof.
  unfold oset_add. destruct (existsb _ hs) eqn:E.
  - apply existsb_exists in E as (k & Ik & Kk). apply key_dec in Kk. eauto.
  - exists i. split; [apply in_or_app; right; left; reflexivity|split; reflexivity].
Qed.
Lemma oset_fold w l : forall acc, keys_differ w acc ->
  let out := fold_left (oset_add w) l acc in
  keys_differ w out /\ (forall j, In j out -> In j acc \/ In j l) /\ (forall j, In j acc -> In j out) /\ (forall i, In i l -> exists j, In j out /\ same_key w j i).
Proof.
  induction l as [|i l IH]; intros acc K; cbn [fold_left].
  - split; [exact K|]. split; [auto|]. split; [auto|]. intros i [].
  - destruct (IH (oset_add w acc i) (oset_add_keys w acc i K)) as (A & B & C & D). split; [exact A|]. split; [|split].
    + intros j J. destruct (B j J) as [J'|J']; [|right; right; exact J']. apply oset_add_spec in J' as [J'|<-]; [left; exact J'|right; left; reflexivity].
    + intros j J. apply C. unfold oset_add. destruct (existsb _ acc); [exact J|apply in_or_app; left; exact J].
    + intros j [<-|J]; [|exact (D j J)]. destruct (oset_add_has w acc i) as (k & Ik & Kk). exists k. split; [apply C, Ik|exact Kk].
Qed.
Theorem C115_hash_array : forall H ids s t s1 ops, hash_ok H -> ready ids s ->
  onew_MerkleTree H ids s = Some (Ok t, s1) ->
  let w := mw_world (later ops s1) in
  exists out, oToHashArray t (later ops s1) = Some (Ok out) /\ (forall j, In j out -> In j ids) /\
    (forall i, In i ids -> exists j, In j out /\ same_key w j i) /\ keys_differ w out.
Proof.
  intros H ids s t s1 ops Hk Rd E w. destruct (C115_tree H ids s Hk Rd) as (t' & s1' & E1 & E' & _ & _ & _ & Lv & _). assert (t' = t) as -> by congruence. assert (s1' = s1) as -> by congruence. clear E1.
  destruct Rd as (Ne & Bd & A & O & N).
  assert (Ls : map (seen (mw_world s)) ids <> []) by (destruct ids; [congruence|discriminate]).
  destruct (new_tree H _ (heap_now s) Hk Ls) as (t' & h & rows & r & E2 & T & _); [unfold zlen in *; rewrite map_length; exact Bd|].
  rewrite E' in E2. assert (t' = t) as -> by congruence. assert (h = heap_now s1) as -> by congruence.
  destruct (tree_walk _ _ _ _ _ _ T) as (L & Wk & IL). pose proof (rows_le_heap _ _ _ _ _ _ T) as Le. unfold heap_now in Le. rewrite map_length in Le.
  unfold heap_now in IL at 1. rewrite !map_length in IL.
  assert (Hf : forall b, In b L -> on_Hash (oderef s1 b) = Some (nth (b - length (mw_nodes s)) ids 0%nat)).
  { intros b Ib. apply IL, in_seq in Ib. assert (Lb : (b - length (mw_nodes s) < length ids)%nat) by lia. destruct (nth_error ids (b - length (mw_nodes s))) as [i|] eqn:En; [|apply nth_error_None in En; lia].
    rewrite (nth_error_nth _ _ _ En). replace b with (length (mw_nodes s) + (b - length (mw_nodes s)))%nat at 1 by lia. apply Lv, En. }
  unfold oToHashArray. rewrite (odfs_walk s1 (later ops s1) _ _ L _ Wk eq_refl Hf) by exact Le.
  eexists. split; [reflexivity|]. fold w. destruct (oset_fold w (map (fun b => nth (b - length (mw_nodes s)) ids 0%nat) L) []) as (K1 & K2 & _ & K4); [intros x y a b Ex; destruct x; discriminate Ex|].
  split; [|split; [|exact K1]].
  - intros j J. destruct (K2 j J) as [[]|J']. apply in_map_iff in J' as (b & <- & Ib). apply IL, in_seq in Ib. apply nth_In. lia.
  - intros i Ii. apply K4. apply in_map_iff. apply In_nth_error in Ii as [k Ek]. assert (Lk : (k < length ids)%nat) by (apply nth_error_Some; congruence).
    exists (length (mw_nodes s) + k)%nat. split; [replace (length (mw_nodes s) + k - length (mw_nodes s))%nat with k by lia; exact (nth_error_nth _ _ _ Ek)|]. apply IL, in_seq. lia.
Qed.
Print Assumptions C115_hash_array.
(** so leaves that have become equal are still both listed when their cached hashes differ *)
Theorem C115_stale_set : forall H ids s t s1 ops out i, hash_ok H -> ready ids s ->
  onew_MerkleTree H ids s = Some (Ok t, s1) -> oToHashArray t (later ops s1) = Some (Ok out) ->
  In i ids -> (forall j, In j ids -> uint_hash (seen (mw_world (later ops s1)) j) = uint_hash (seen (mw_world (later ops s1)) i) -> j = i) -> In i out.
Proof.
  intros H ids s t s1 ops out i Hk Rd E Eo Ii U. destruct (C115_hash_array H ids s t s1 ops Hk Rd E) as (out' & Eo' & Sub & All & _). assert (out' = out) as -> by congruence.
  destruct (All i Ii) as (j & J & K). rewrite <- (U j (Sub j J) (proj2 K)). exact J.
Qed.
Print Assumptions C115_stale_set.

(** one hash: the root is the object that was given, and follows it *)
Theorem C115_one : forall H i s, (oComputeRoot H [i] s = Some (Ok i, s)) /\
  exists s1, onew_MerkleTree H [i] s = Some (Ok (mkTree (length (mw_nodes s)) 1), s1) /\ mw_world s1 = mw_world s /\
    forall ops, on_Hash (oderef (later ops s1) (length (mw_nodes s))) = Some i.
Proof.
  intros H i s. split; [reflexivity|]. unfold onew_MerkleTree. cbn [length seq map obuild]. set (s1 := mkMW _ _).
  assert (D : oderef s1 (length (mw_nodes s)) = new_onode (Some i)) by (unfold oderef, s1; cbn [mw_nodes]; rewrite app_nth2, Nat.sub_diag by lia; reflexivity).
  exists s1. split; [|split; [reflexivity|]].
  - destruct (length (mw_nodes s1)); cbn [oleft_depth]; rewrite D; reflexivity.
  - intros ops. change (oderef (later ops s1) (length (mw_nodes s))) with (oderef s1 (length (mw_nodes s))). rewrite D. reflexivity.
Qed.
Print Assumptions C115_one.
(** the bytearray of the root hash is handed out by ToArray(): writing to it replaces the root *)
Theorem C115_root_writable : forall H ids s t s1 i d, hash_ok H -> ready ids s -> (2 <= length ids)%nat ->
  onew_MerkleTree H ids s = Some (Ok t, s1) -> on_Hash (oderef s1 (t_Root t)) = Some i ->
  exists loc, o_data (obj (mw_world s1) i) = DCell loc /\ (forall k, In k ids -> o_data (obj (mw_world s1) k) <> DCell loc) /\
    u_data (seen (mw_world (later [Mutate loc d] s1)) i) = d /\
    uint_hash (seen (mw_world (later [Mutate loc d] s1)) i) = uint_hash (seen (mw_world s1) i).
Proof.
  intros H ids s t s1 i d Hk (Ne & Bd & A & O & N) L E Ei. destruct (new_otree H ids s Hk Ne Bd O N A) as (t' & s1' & E1 & _ & (G & O1 & N1 & _ & _ & I2) & R).
  assert (t' = t) as -> by congruence. assert (s1' = s1) as -> by congruence. specialize (I2 _ (R L)). rewrite Ei in I2. destruct I2 as (Li & loc & El & Ll).
  exists loc. split; [exact El|]. split; [|split].
  - intros k Ik. unfold all_exist in A. rewrite Forall_forall in A. rewrite (grows_obj _ _ _ G (A k Ik)). intros K. pose proof (obj_ok _ k O (A k Ik)) as K'. rewrite K in K'. lia.
  - unfold later, seen, view. cbn [run_uops fold_left ustep mw_world u_data]. unfold data_of. change (obj (mkWorld (M_UIntHeap.update (cells (mw_world s1)) loc d) (objs (mw_world s1))) i) with (obj (mw_world s1) i).
    rewrite El. unfold cell. cbn [cells]. apply uupdate_same. lia.
  - reflexivity.
Qed.
Print Assumptions C115_root_writable.

(** the hypotheses hold for every program: at the beginning, after any steps, and after another tree *)
Theorem C115_reachable :
  (forall ops ids, ids <> [] -> zlen ids < 2 ^ 53 - 1 -> all_exist (run_uops ops empty_world) ids -> ready ids (mkMW (run_uops ops empty_world) [])) /\
  (forall H ids s t s1 ops ids', hash_ok H -> ready ids s -> onew_MerkleTree H ids s = Some (Ok t, s1) ->
     ids' <> [] -> zlen ids' < 2 ^ 53 - 1 -> all_exist (mw_world (later ops s1)) ids' -> ready ids' (later ops s1)).
Proof.
  split.
  - intros ops ids Ne Bd A. split; [exact Ne|]. split; [exact Bd|]. split; [exact A|]. split; [apply ok_run; constructor|constructor].
  - intros H ids s t s1 ops ids' Hk (Ne & Bd & A & O & N) E Ne' Bd' A'. destruct (new_otree H ids s Hk Ne Bd O N A) as (t' & s1' & E1 & _ & (G & O1 & N1 & _) & _). assert (s1' = s1) as -> by congruence.
    split; [exact Ne'|]. split; [exact Bd'|]. split; [exact A'|]. split; [apply ok_run, O1|]. pose proof (objs_run ops (mw_world s1)) as Lr.
    unfold nodes_ok, later in *. cbn [mw_world mw_nodes] in *. eapply Forall_impl; [|exact N1]. intros n K. cbv beta in *. destruct (on_Hash n); [exact (Nat.lt_le_trans _ _ _ K Lr)|exact I].
Qed.
Print Assumptions C115_reachable.

(** two UInt256 on the caller's bytearrays 0 and 1; afterwards the second is made equal to the first *)
Definition two_objects : mworld := mkMW (run_uops [NewBytearray (repeat x01 32); NewBytearray (repeat x02 32); Construct CUInt256 32 (ACell 0); Construct CUInt256 32 (ACell 1)] empty_world) [].
Example C115_example : hash_ok real_hashes /\ ready [0; 1]%nat two_objects /\
  match onew_MerkleTree real_hashes [0; 1]%nat two_objects with
  | Some (Ok t, s1) =>
      let s2 := later [Mutate 1 (repeat x01 32)] s1 in
      Forall (spares (mw_world two_objects) (mw_world s1)) [Mutate 1 (repeat x01 32)] /\
      on_Hash (oderef s2 (t_Root t)) = Some 2%nat /\ seen (mw_world s2) 2 = seen (mw_world s1) 2 /\
      u_data (seen (mw_world s2) 0) = u_data (seen (mw_world s2) 1) /\
      oToHashArray t s2 = Some (Ok [0; 1]%nat) /\
      match oComputeRoot real_hashes [0; 1]%nat s2 with Some (Ok j, s3) => u_data (seen (mw_world s3) j) <> u_data (seen (mw_world s2) 2) | _ => False end
  | _ => False
  end.
Proof.
  split; [exact real_hashes_ok|]. split.
  - split; [discriminate|]. split; [reflexivity|]. split; [repeat constructor|]. split; [repeat constructor|constructor].
  - vm_compute. split; [constructor; [left; repeat constructor|constructor]|]. repeat split; try reflexivity. discriminate.
Qed.
