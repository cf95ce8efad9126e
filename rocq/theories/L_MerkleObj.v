(** * L_MerkleObj: Merkle trees over UInt objects *)
From Coq Require Import ZArith Lia List Arith.
From Verif Require Import M_Py M_Hash M_UInt M_Reader M_UIntHeap M_Helper M_ECCurve M_Merkle M_MerkleObj L_Bytes L_FloatDiv S_IO S_IO2 S_UInt S_Merkle S_MerkleObj L_UInt L_Merkle L_Merkle2.
Import ListNotations.
Local Open Scope nat_scope.

(** ** worlds that grow *)
Definition grows (w w' : world) : Prop := exists c o, cells w' = cells w ++ c /\ objs w' = objs w ++ o.
Lemma grows_refl w : grows w w.
Proof. exists [], []. rewrite !app_nil_r. auto. Qed.
Lemma grows_trans a b c : grows a b -> grows b c -> grows a c.
Proof. intros (x & y & X & Y) (x' & y' & X' & Y'). exists (x ++ x'), (y ++ y'). rewrite X', Y', X, Y, !app_assoc. auto. Qed.
Lemma grows_obj w w' i : grows w w' -> i < length (objs w) -> obj w' i = obj w i.
Proof. intros (x & y & X & Y) L. unfold obj. rewrite Y. apply app_nth1, L. Qed.
Lemma grows_len w w' : grows w w' -> length (cells w) <= length (cells w') /\ length (objs w) <= length (objs w').
Proof. intros (x & y & X & Y). rewrite X, Y, !app_length. lia. Qed.
Lemma obj_ok w i : objects_ok w -> i < length (objs w) -> match o_data (obj w i) with DCell l => l < length (cells w) | DImm _ => True end.
Proof. intros O L. unfold objects_ok in O. rewrite Forall_forall in O. apply O. unfold obj. apply nth_In, L. Qed.
Lemma grows_seen w w' i : objects_ok w -> grows w w' -> i < length (objs w) -> seen w' i = seen w i.
Proof.
  intros O G L. unfold seen. rewrite (grows_obj w w' i G L). unfold view. f_equal. pose proof (obj_ok w i O L) as K. unfold data_of.
  destruct (o_data (obj w i)) as [l|b]; [|reflexivity]. destruct G as (x & y & X & Y). unfold cell. rewrite X. apply app_nth1, K.
Qed.
Lemma new_world w d : length d = 32 ->
  ustep w (Construct CUInt256 32 (ABytes d)) = mkWorld (cells w ++ [d]) (objs w ++ [mkObj CUInt256 (DCell (length (cells w))) (GetHashCode d)]).
Proof. intros L. cbn [ustep]. unfold zlen. rewrite L. reflexivity. Qed.
Lemma new_grows w d : length d = 32 -> grows w (ustep w (Construct CUInt256 32 (ABytes d))).
Proof. intros L. rewrite new_world by exact L. eexists _, _. split; reflexivity. Qed.
Lemma new_obj w d : length d = 32 -> obj (ustep w (Construct CUInt256 32 (ABytes d))) (length (objs w)) = mkObj CUInt256 (DCell (length (cells w))) (GetHashCode d).
Proof. intros L. rewrite new_world by exact L. unfold obj. cbn [objs]. rewrite app_nth2, Nat.sub_diag by lia. reflexivity. Qed.
Lemma new_seen w d : length d = 32 -> seen (ustep w (Construct CUInt256 32 (ABytes d))) (length (objs w)) = mkUInt CUInt256 d (GetHashCode d).
Proof.
  intros L. unfold seen. rewrite new_obj by exact L. unfold view, data_of. cbn [o_data o_cls o_hash]. f_equal.
  rewrite new_world by exact L. unfold cell. cbn [cells]. rewrite app_nth2, Nat.sub_diag by lia. reflexivity.
Qed.
Lemma new_ok w d : length d = 32 -> objects_ok w -> objects_ok (ustep w (Construct CUInt256 32 (ABytes d))).
Proof.
  intros L O. rewrite new_world by exact L. unfold objects_ok in *. cbn [cells objs]. apply Forall_app. split.
  - eapply Forall_impl; [|exact O]. intros o. rewrite app_length. cbn [length]. destruct (o_data o); [lia|auto].
  - constructor; [cbn [o_data]; rewrite app_length; cbn [length]; lia|constructor].
Qed.

(** ** the object-level construction and the value-level one go side by side *)
Section Sim.
Variable w0 : world.        (* before *)
Variable base : nat.        (* nodes from here on are inner nodes *)
Variable s0 : mworld.       (* after the leaves have been made *)

(** what every step keeps *)
Definition fresh (w : world) (i : nat) : Prop := length (objs w0) <= i < length (objs w) /\
  exists l, o_data (obj w i) = DCell l /\ length (cells w0) <= l < length (cells w).
Definition inv (s : mworld) : Prop :=
  grows w0 (mw_world s) /\ objects_ok (mw_world s) /\ nodes_ok s /\ base <= length (mw_nodes s) /\
  (forall a, a < base -> on_Hash (oderef s a) = on_Hash (oderef s0 a)) /\
  (forall a, base <= a -> match on_Hash (oderef s a) with Some i => fresh (mw_world s) i | None => True end).
Definition sim {A} (m : om A) (m' : hm A) : Prop := forall s, inv s ->
  exists r s', m s = (r, s') /\ m' (heap_now s) = (r, heap_now s') /\ inv s' /\ length (mw_nodes s) <= length (mw_nodes s').

Lemma sim_bind {A B} (m : om A) m' (f : A -> om B) f' : sim m m' -> (forall a, sim (f a) (f' a)) -> sim (obind m f) (hbind m' f').
Proof.
  intros M F s I. destruct (M s I) as (r & s1 & E & E' & I1 & L1). unfold obind, hbind. rewrite E, E'. destruct r as [a|e].
  - destruct (F a s1 I1) as (r & s2 & E2 & E2' & I2 & L2). exists r, s2. split; [exact E2|]. split; [exact E2'|]. split; [exact I2|lia].
  - exists (Raise e), s1. auto.
Qed.
Lemma sim_ret {A} (a : A) : sim (oret a) (hret a).
Proof. intros s I. exists (Ok a), s. auto. Qed.
Lemma sim_lift {A} (r : res A) : sim (olift r) (hlift r).
Proof. intros s I. exists r, s. auto. Qed.
Lemma deref_now s a : deref (heap_now s) a = node_now (mw_world s) (oderef s a).
Proof. unfold deref, heap_now, oderef. change (new_node None) with (node_now (mw_world s) (new_onode None)). apply map_nth. Qed.
Lemma sim_get {A} (f : mworld -> A) f' : (forall s, f s = f' (heap_now s)) -> sim (oget f) (hget f').
Proof. intros E s I. exists (Ok (f s)), s. unfold oget, hget. rewrite E. auto. Qed.
Lemma now_update w a f f' l : (forall n, node_now w (f n) = f' (node_now w n)) -> map (node_now w) (M_Merkle.update a f l) = M_Merkle.update a f' (map (node_now w) l).
Proof. intros E. revert a. induction l as [|x l IH]; intros [|a]; cbn; [reflexivity|reflexivity|rewrite E; reflexivity|rewrite IH; reflexivity]. Qed.
Lemma update_nth {A} a f (l : list A) d b : nth b (M_Merkle.update a f l) d = if Nat.eqb a b then (if b <? length l then f (nth b l d) else nth b l d) else nth b l d.
Proof.
  revert a b. induction l as [|x l IH]; intros [|a] [|b]; cbn; try reflexivity.
  - destruct (Nat.eqb a b); reflexivity.
  - rewrite IH. cbn. destruct (Nat.eqb a b); reflexivity.
Qed.
Lemma Forall_update {A} (P : A -> Prop) a f l : Forall P l -> (forall x, P x -> P (f x)) -> Forall P (M_Merkle.update a f l).
Proof. intros F K. revert a. induction F as [|x l X F IH]; intros [|a]; cbn; constructor; auto. Qed.
Lemma sim_set a f f' : (forall w n, node_now w (f n) = f' (node_now w n)) -> (forall n, on_Hash (f n) = on_Hash n) -> sim (oset a f) (hset a f').
Proof.
  intros E K s (G & O & N & B & I1 & I2). exists (Ok tt), (mkMW (mw_world s) (M_Merkle.update a f (mw_nodes s))). unfold oset, hset, heap_now. cbn [mw_world mw_nodes].
  rewrite (now_update _ _ _ f') by apply E. split; [reflexivity|]. split; [reflexivity|]. rewrite update_length. split; [|lia].
  assert (X : forall b, on_Hash (oderef (mkMW (mw_world s) (M_Merkle.update a f (mw_nodes s))) b) = on_Hash (oderef s b)).
  { intros b. unfold oderef. cbn [mw_nodes]. rewrite update_nth. destruct (Nat.eqb a b); [|reflexivity]. destruct (b <? length (mw_nodes s)); [apply K|reflexivity]. }
  refine (conj _ (conj _ (conj _ (conj _ (conj _ _))))); cbn [mw_world mw_nodes].
  - exact G.
  - exact O.
  - unfold nodes_ok in *. cbn [mw_world mw_nodes]. apply Forall_update; [exact N|]. intros n. rewrite K. auto.
  - rewrite update_length. exact B.
  - intros b L. rewrite X. exact (I1 b L).
  - intros b L. rewrite X. exact (I2 b L).
Qed.
Lemma array_now s a : ohash_array s (oderef s a) = hash_array (deref (heap_now s) a).
Proof. rewrite deref_now. unfold ohash_array, hash_array, node_now. cbn [n_Hash]. destruct (on_Hash (oderef s a)); reflexivity. Qed.
Lemma left_now s node : match on_LeftChild (oderef s node) with Some a => ohash_array s (oderef s a) | None => Raise AttributeError end =
  match n_LeftChild (deref (heap_now s) node) with Some a => hash_array (deref (heap_now s) a) | None => Raise AttributeError end.
Proof. rewrite (deref_now s node). cbn [node_now n_LeftChild]. destruct (on_LeftChild (oderef s node)); [apply array_now|reflexivity]. Qed.
Lemma right_now s node : match on_RightChild (oderef s node) with Some a => ohash_array s (oderef s a) | None => Raise AttributeError end =
  match n_RightChild (deref (heap_now s) node) with Some a => hash_array (deref (heap_now s) a) | None => Raise AttributeError end.
Proof. rewrite (deref_now s node). cbn [node_now n_RightChild]. destruct (on_RightChild (oderef s node)); [apply array_now|reflexivity]. Qed.
Lemma fresh_grows w w' i : grows w w' -> fresh w i -> fresh w' i.
Proof.
  intros G ([L1 L2] & l & E & L3). pose proof (grows_len _ _ G). split; [lia|]. exists l. rewrite (grows_obj w w' i G L2). split; [exact E|lia].
Qed.
(** the last two statements: a new UInt256 becomes the Hash of an inner node *)
Lemma sim_new node d : base <= node ->
  sim (obind (onew_UInt256 d) (fun u => oset node (set_oHash (Some u)))) (hbind (hlift (new_UInt256 (VBytes d))) (fun u => hset node (set_Hash (Some u)))).
Proof.
  intros Bn s (G & O & N & B & I1 & I2). unfold obind, hbind, onew_UInt256, hlift, new_UInt256, UIntBase_init. cbn [py_len rbind].
  change (Z.of_nat 32) with 32%Z. destruct (Z.eqb_spec (zlen d) 32) as [E|E].
  2: { cbn [negb]. exists (Raise PlainException), s. split; [reflexivity|]. split; [reflexivity|]. split; [|lia]. exact (conj G (conj O (conj N (conj B (conj I1 I2))))). }
  cbn [negb]. assert (L : length d = 32) by (unfold zlen in E; lia). set (w := mw_world s). set (w' := ustep w (Construct CUInt256 32 (ABytes d))).
  pose proof (new_grows w d L) as Gw. fold w' in Gw. pose proof (grows_len _ _ Gw) as Gl. pose proof (grows_len _ _ G) as G0.
  exists (Ok tt), (mkMW w' (M_Merkle.update node (set_oHash (Some (length (objs w)))) (mw_nodes s))). unfold oset, hset. cbn [mw_world mw_nodes].
  split; [reflexivity|]. split; [|split].
  - f_equal. unfold heap_now. cbn [mw_world mw_nodes]. fold w. rewrite (now_update w' node _ (set_Hash (Some (mkUInt CUInt256 d (GetHashCode d))))).
    + f_equal. apply map_ext_in. intros n In_n. unfold node_now. f_equal. unfold nodes_ok in N. rewrite Forall_forall in N. pose proof (N n In_n) as K.
      destruct (on_Hash n) as [i|]; [|reflexivity]. cbn [option_map]. f_equal. symmetry. apply grows_seen; assumption.
    + intros n. unfold node_now, set_Hash, set_oHash. cbn [option_map on_Hash on_Parent on_LeftChild on_RightChild n_Parent n_LeftChild n_RightChild]. unfold w'. rewrite new_seen by exact L. reflexivity.
  - assert (Lo : length (objs w') = S (length (objs w))). { unfold w'. rewrite new_world by exact L. cbn [objs]. rewrite app_length. cbn. lia. }
    assert (Lc : length (cells w') = S (length (cells w))). { unfold w'. rewrite new_world by exact L. cbn [cells]. rewrite app_length. cbn. lia. }
    refine (conj _ (conj _ (conj _ (conj _ (conj _ _))))); cbn [mw_world mw_nodes].
    + exact (grows_trans _ _ _ G Gw).
    + apply new_ok; assumption.
    + unfold nodes_ok in *. cbn [mw_world mw_nodes]. apply Forall_update.
      * eapply Forall_impl; [|exact N]. intros n Lj. cbv beta in *. destruct (on_Hash n) as [j|]; [|exact I]. exact (Nat.lt_le_trans _ _ _ Lj (proj2 Gl)).
      * intros n _. cbn [on_Hash set_oHash]. rewrite Lo. apply Nat.lt_succ_diag_r.
    + rewrite update_length. exact B.
    + intros a La. unfold oderef. cbn [mw_nodes]. rewrite update_nth. destruct (Nat.eqb_spec node a); [lia|]. apply I1, La.
    + intros a La. unfold oderef. cbn [mw_nodes]. rewrite update_nth. specialize (I2 a La). unfold oderef in I2.
      assert (K : match on_Hash (nth a (mw_nodes s) (new_onode None)) with Some i => fresh w' i | None => True end).
      { destruct (on_Hash (nth a (mw_nodes s) (new_onode None))); [|exact I]. eapply fresh_grows; [exact Gw|exact I2]. }
      destruct (Nat.eqb_spec node a) as [<-|]; [|exact K]. destruct (node <? length (mw_nodes s)); [|exact K]. cbn [set_oHash on_Hash]. rewrite <- ?Lo. unfold fresh. split.
      * fold w in G0. lia.
      * exists (length (cells w)). split; [unfold w'; rewrite new_obj by exact L; reflexivity|fold w in G0; lia].
  - rewrite update_length. lia.
Qed.
Lemma map_rep {A B} (f : A -> B) x n : map f (repeat x n) = repeat (f x) n.
Proof. induction n as [|n IH]; cbn; [reflexivity|rewrite IH; reflexivity]. Qed.
Lemma sim_alloc n : sim (oalloc (repeat (new_onode None) n)) (halloc (repeat (new_node None) n)).
Proof.
  intros s (G & O & N & B & I1 & I2). exists (Ok (seq (length (mw_nodes s)) n)), (mkMW (mw_world s) (mw_nodes s ++ repeat (new_onode None) n)).
  unfold oalloc, halloc. rewrite !repeat_length. unfold heap_now. cbn [mw_world mw_nodes]. rewrite map_length, map_app, map_rep. split; [reflexivity|]. split; [reflexivity|]. rewrite app_length. split; [|lia].
  assert (X : forall b, on_Hash (oderef (mkMW (mw_world s) (mw_nodes s ++ repeat (new_onode None) n)) b) = on_Hash (oderef s b)).
  { intros b. unfold oderef. cbn [mw_nodes]. destruct (Nat.lt_ge_cases b (length (mw_nodes s))) as [L|L]; [rewrite app_nth1 by exact L; reflexivity|].
    rewrite app_nth2 by exact L. rewrite (nth_overflow (mw_nodes s)) by exact L. rewrite nth_repeat. reflexivity. }
  refine (conj _ (conj _ (conj _ (conj _ (conj _ _))))); cbn [mw_world mw_nodes].
  - exact G.
  - exact O.
  - unfold nodes_ok in *. cbn [mw_world mw_nodes]. apply Forall_app. split; [exact N|]. apply Forall_forall. intros x Ix. apply repeat_spec in Ix. subst. exact I.
  - rewrite app_length. lia.
  - intros b L. rewrite X. exact (I1 b L).
  - intros b L. rewrite X. exact (I2 b L).
Qed.
Lemma sim_step H leaves parents i : base <= nth i parents 0 -> sim (obuild_step H leaves parents i) (build_step H leaves parents i).
Proof.
  intros B. unfold obuild_step, build_step. set (node := nth i parents 0) in *. set (left := nth (i * 2) leaves 0).
  apply sim_bind; [apply sim_set; reflexivity|intros _]. apply sim_bind; [apply sim_set; reflexivity|intros _].
  apply sim_bind.
  { destruct (Nat.eqb (i * 2 + 1) (length leaves)).
    - apply sim_bind; [apply sim_get; intros s; rewrite deref_now; reflexivity|intros l; apply sim_set; reflexivity].
    - apply sim_bind; [apply sim_set; reflexivity|intros _; apply sim_set; reflexivity]. }
  intros _. apply sim_bind; [apply sim_get; intros s; apply left_now|intros l].
  apply sim_bind; [apply sim_get; intros s; apply right_now|intros r].
  apply sim_bind; [apply sim_lift|intros d]. apply sim_new, B.
Qed.
Lemma sim_for H leaves parents l : (forall i, In i l -> base <= nth i parents 0) -> sim (ofor l (obuild_step H leaves parents)) (hfor l (build_step H leaves parents)).
Proof.
  induction l as [|i l IH]; intros F; cbn [ofor hfor]; [apply sim_ret|]. apply sim_bind; [apply sim_step, F; left; reflexivity|intros _]. apply IH. intros j J. apply F. right. exact J.
Qed.
Lemma row_sim H (ls : list addr) n s : inv s -> exists r s',
  (parents <~ oalloc (repeat (new_onode None) n) ; ofor (seq 0 n) (obuild_step H ls parents) ;~ oret parents) s = (r, s') /\
  (parents <== halloc (repeat (new_node None) n) ; hfor (seq 0 n) (build_step H ls parents) ;;; hret parents) (heap_now s) = (r, heap_now s') /\ inv s' /\
  length (mw_nodes s) <= length (mw_nodes s') /\ (forall ps, r = Ok ps -> ps = seq (length (mw_nodes s)) n).
Proof.
  intros I. destruct (sim_alloc n s I) as (r0 & s1 & E1 & E1' & I1 & L1).
  assert (r0 = Ok (seq (length (mw_nodes s)) n)) as ->. { unfold oalloc in E1. rewrite repeat_length in E1. congruence. }
  assert (K : forall ps, ps = seq (length (mw_nodes s)) n -> sim (obind (ofor (seq 0 n) (obuild_step H ls ps)) (fun _ => oret ps)) (hbind (hfor (seq 0 n) (build_step H ls ps)) (fun _ => hret ps))).
  { intros ps ->. apply sim_bind; [|intros _; apply sim_ret]. apply sim_for. intros i Ii. apply in_seq in Ii. rewrite seq_nth by lia. destruct I as (_ & _ & _ & B & _). lia. }
  destruct (K _ eq_refl s1 I1) as (r & s2 & E2 & E2' & I2 & L2). exists r, s2.
  split; [|split; [|split; [exact I2|split; [lia|]]]].
  - unfold obind at 1. rewrite E1. exact E2.
  - unfold hbind at 1. rewrite E1'. exact E2'.
  - intros ps ->. unfold obind in E2. destruct (ofor (seq 0 n) (obuild_step H ls (seq (length (mw_nodes s)) n)) s1) as [[x|e] s3]; [|discriminate]. unfold oret in E2. congruence.
Qed.
Lemma obuild_sim H : forall fuel leaves s, inv s ->
  (obuild fuel H leaves s = None /\ build fuel H leaves (heap_now s) = None) \/
  exists r s', obuild fuel H leaves s = Some (r, s') /\ build fuel H leaves (heap_now s) = Some (r, heap_now s') /\ inv s'.
Proof.
  induction fuel as [|fuel IH]; intros leaves s I.
  - destruct leaves as [|x [|y leaves]]; cbn [obuild build]; [right; eauto 6|right; eauto 6|left; auto].
  - destruct leaves as [|x [|y leaves]]; cbn [obuild build]; [right; eauto 6|right; eauto 6|].
    destruct (int_div (zlen (x :: y :: leaves) + 1) 2) as [np|e]; [|right; eauto 6].
    destruct (row_sim H (x :: y :: leaves) (Z.to_nat np) s I) as (r & s2 & E2 & E2' & I2 & _). rewrite E2, E2'.
    destruct r as [ps|e]; [apply IH, I2|right; eauto 6].
Qed.
(** the root is the only leaf or a new node *)
Lemma obuild_root H : forall fuel leaves s root s', inv s -> obuild fuel H leaves s = Some (Ok root, s') -> leaves = [root] \/ length (mw_nodes s) <= root.
Proof.
  induction fuel as [|fuel IH]; intros leaves s root s' I E.
  - destruct leaves as [|x [|y leaves]]; cbn [obuild] in E; [discriminate|left; congruence|discriminate].
  - destruct leaves as [|x [|y leaves]]; cbn [obuild] in E; [discriminate|left; congruence|]. right.
    destruct (int_div (zlen (x :: y :: leaves) + 1) 2) as [np|e]; [|discriminate].
    destruct (row_sim H (x :: y :: leaves) (Z.to_nat np) s I) as (r & s2 & E2 & _ & I2 & L2 & Ps). rewrite E2 in E. destruct r as [ps|e]; [|discriminate].
    rewrite (Ps ps eq_refl) in E. destruct (IH _ _ _ _ I2 E) as [K|K]; [|lia].
    assert (In root (seq (length (mw_nodes s)) (Z.to_nat np))) as J by (rewrite K; left; reflexivity). apply in_seq in J. lia.
Qed.
End Sim.

Lemma oleft_depth_now f : forall s i d, oleft_depth f s i d = left_depth f (heap_now s) i d.
Proof.
  induction f as [|f IH]; intros s i d; cbn [oleft_depth left_depth]; rewrite deref_now; cbn [node_now n_LeftChild]; destruct (on_LeftChild (oderef s i)); auto.
Qed.
(** the state in which the leaves have just been made *)
Definition with_leaves (ids : list nat) (s : mworld) : mworld := mkMW (mw_world s) (mw_nodes s ++ map (fun i => new_onode (Some i)) ids).
Definition base_of (ids : list nat) (s : mworld) : nat := length (mw_nodes s) + length ids.
Lemma new_otree H ids s : hash_ok H -> ids <> [] -> (zlen ids < 2 ^ 53 - 1)%Z -> objects_ok (mw_world s) -> nodes_ok s -> all_exist (mw_world s) ids ->
  exists t s1, onew_MerkleTree H ids s = Some (Ok t, s1) /\ new_MerkleTree H (map (seen (mw_world s)) ids) (heap_now s) = Some (Ok t, heap_now s1) /\
    inv (mw_world s) (base_of ids s) (with_leaves ids s) s1 /\ (2 <= length ids -> base_of ids s <= t_Root t).
Proof.
  intros Hk Ne Bd O N A. set (w := mw_world s) in *. set (hs := map (seen w) ids).
  assert (Lh : length hs = length ids) by apply map_length.
  destruct (new_tree H hs (heap_now s) Hk) as (t & h & rows & r & E & _); [intros X; apply Ne; destruct ids; [reflexivity|discriminate X]|unfold zlen in *; rewrite Lh; exact Bd|].
  assert (I0 : inv w (base_of ids s) (with_leaves ids s) (with_leaves ids s)).
  { refine (conj _ (conj _ (conj _ (conj _ (conj _ _))))).
    - apply grows_refl.
    - exact O.
    - unfold nodes_ok, with_leaves. cbn [mw_world mw_nodes]. apply Forall_app. split; [exact N|]. apply Forall_forall. intros n In_n. apply in_map_iff in In_n as (i & <- & Ii).
      cbn [new_onode on_Hash]. unfold all_exist in A. rewrite Forall_forall in A. apply A, Ii.
    - unfold with_leaves, base_of. cbn [mw_nodes]. rewrite app_length, map_length. lia.
    - reflexivity.
    - intros a La. unfold oderef, with_leaves, base_of in *. cbn [mw_nodes]. rewrite nth_overflow; [exact I|]. rewrite app_length, map_length. exact La. }
  assert (Hn : heap_now (with_leaves ids s) = heap_now s ++ map (fun u => new_node (Some u)) hs).
  { unfold heap_now, with_leaves. cbn [mw_world mw_nodes]. rewrite map_app. f_equal. unfold hs. rewrite !map_map. reflexivity. }
  unfold new_MerkleTree in E. rewrite <- Hn, Lh in E. unfold heap_now at 1 in E. rewrite map_length in E.
  unfold onew_MerkleTree. fold (with_leaves ids s).
  destruct (obuild_sim w (base_of ids s) (with_leaves ids s) H (length ids) (seq (length (mw_nodes s)) (length ids)) (with_leaves ids s) I0) as [[_ E']|(r' & s1 & E1 & E2 & I1)].
  - rewrite E' in E. discriminate.
  - rewrite E2 in E. destruct r' as [root|e]; [|discriminate].
    rewrite E1, oleft_depth_now. unfold heap_now in E at 1. rewrite map_length in E.
    exists t, s1. destruct (left_depth (length (mw_nodes s1)) (heap_now s1) root 1) as [d|] eqn:D; [|discriminate].
    assert (t = mkTree root d) as -> by congruence. split; [reflexivity|]. split; [|split; [exact I1|]].
    2: { intros L2. cbn [t_Root]. destruct (obuild_root _ _ _ H _ _ _ _ _ I0 E1) as [K|K].
         - apply (f_equal (@length nat)) in K. rewrite seq_length in K. cbn in K. lia.
         - unfold with_leaves in K. cbn [mw_nodes] in K. rewrite app_length, map_length in K. exact K. }
    unfold new_MerkleTree. fold hs. rewrite <- Hn, Lh. unfold heap_now at 1. rewrite map_length, E2. unfold heap_now at 1. rewrite map_length, D. reflexivity.
Qed.

(** ** afterwards *)
Lemma uupdate_length {A} (l : list A) i x : length (M_UIntHeap.update l i x) = length l.
Proof. revert i. induction l as [|y l IH]; intros [|i]; cbn; auto. Qed.
Lemma uupdate_other {A} (l : list A) i x j d : j <> i -> nth j (M_UIntHeap.update l i x) d = nth j l d.
Proof. revert i j. induction l as [|y l IH]; intros [|i] [|j] Ne; cbn; try reflexivity; try lia. apply IH. lia. Qed.
Lemma uupdate_same {A} (l : list A) i x d : i < length l -> nth i (M_UIntHeap.update l i x) d = x.
Proof. revert i. induction l as [|y l IH]; intros [|i] L; cbn in *; try lia; [reflexivity|]. apply IH. lia. Qed.
(** [w] still holds what was made between [w0] and [w1] *)
Definition holds (w0 w1 w : world) : Prop :=
  length (cells w1) <= length (cells w) /\ length (objs w1) <= length (objs w) /\
  (forall l, length (cells w0) <= l < length (cells w1) -> cell w l = cell w1 l) /\
  (forall i, length (objs w0) <= i < length (objs w1) -> obj w i = obj w1 i).
Lemma holds_app w0 w1 w c o : holds w0 w1 w -> holds w0 w1 (mkWorld (cells w ++ c) (objs w ++ o)).
Proof.
  intros (A & B & C & D). unfold holds. cbn [cells objs]. rewrite !app_length. split; [lia|]. split; [lia|]. split.
  - intros l L. rewrite <- (C l L). unfold cell. cbn [cells]. apply app_nth1. lia.
  - intros i L. rewrite <- (D i L). unfold obj. cbn [objs]. apply app_nth1. lia.
Qed.
Lemma holds_step w0 w1 w op : spares w0 w1 op -> holds w0 w1 w -> holds w0 w1 (ustep w op).
Proof.
  intros S K. destruct op as [b|loc b|cls n [|b|loc]|i st]; cbn [ustep alloc snd].
  - rewrite <- (app_nil_r (objs w)). apply holds_app, K.
  - destruct K as (A & B & C & D). cbn in S. unfold holds. cbn [cells objs]. rewrite uupdate_length. split; [exact A|]. split; [exact B|]. split; [|exact D].
    intros l L. rewrite <- (C l L). unfold cell. cbn [cells]. apply uupdate_other. lia.
  - unfold add_obj. cbn [cells objs]. apply holds_app, K.
  - destruct (negb (zlen b =? Z.of_nat n)%Z); [exact K|]. unfold add_obj. cbn [cells objs]. apply holds_app, K.
  - destruct (loc <? length (cells w)); [|exact K]. destruct (negb (zlen (cell w loc) =? Z.of_nat n)%Z); [exact K|].
    unfold add_obj. rewrite <- (app_nil_r (cells w)). apply holds_app, K.
  - destruct (nth_error (objs w) i) as [o|]; [|exact K]. destruct (uint_Deserialize (view w o) st) as [[u|e] st']; [|exact K].
    destruct K as (A & B & C & D). cbn in S. unfold holds. cbn [cells objs]. rewrite uupdate_length. split; [exact A|]. split; [exact B|]. split; [exact C|].
    intros j L. rewrite <- (D j L). unfold obj. cbn [objs]. apply uupdate_other. lia.
Qed.
Lemma holds_run w0 w1 ops : Forall (spares w0 w1) ops -> forall w, holds w0 w1 w -> holds w0 w1 (run_uops ops w).
Proof. intros F. induction F as [|op ops S F IH]; intros w K; [exact K|]. cbn [run_uops fold_left]. apply IH, holds_step; assumption. Qed.
Lemma fresh_stays w0 w1 w i : holds w0 w1 w -> fresh w0 w1 i -> seen w i = seen w1 i.
Proof.
  intros (A & B & C & D) (L & l & E & Ll). unfold seen. rewrite (D i L). unfold view. f_equal. unfold data_of. rewrite E. apply C, Ll.
Qed.

(** ** walking through the tree: only the children matter *)
Inductive walk (h : heap) : nat -> addr -> list addr -> Prop :=
| wk_leaf a : n_LeftChild (deref h a) = None -> walk h 0 a [a]
| wk_node d a l r L R : n_LeftChild (deref h a) = Some l -> n_RightChild (deref h a) = Some r ->
    walk h d l L -> walk h d r R -> walk h (S d) a (L ++ R).
Lemma rows_walk H h low rows root : rows_above H h low rows root -> forall d f, length f = length low ->
  (forall i a, nth_error low i = Some a -> walk h d a (nth i f [])) ->
  exists L, walk h (d + length rows) root L /\ forall u, In u L <-> In u (concat f).
Proof.
  induction 1 as [a _|low up rest root L [Lu A] R IH]; intros d f Lf P.
  - destruct f as [|x [|]]; try discriminate. exists x. rewrite Nat.add_0_r. split; [exact (P 0 a eq_refl)|]. cbn. rewrite app_nil_r. tauto.
  - destruct (choose_lists (fun i a x => walk h (S d) a x /\ forall u, In u x <-> In u (nth (2 * i) f []) \/ In u (nth (2 * i + 1) f [])) [] up) as (g & Lg & Pg).
    { intros i a E. destruct (A i a E) as (l & r & hl & hr & v & El & Er & Cl & Cr & _). destruct Er as [Er|[Er ->]].
      - exists (nth (2 * i) f [] ++ nth (2 * i + 1) f []). split; [|intros u; apply in_app_iff]. eapply wk_node; [exact Cl|exact Cr|apply P, El|apply P, Er].
      - exists (nth (2 * i) f [] ++ nth (2 * i) f []). split; [eapply wk_node; [exact Cl|exact Cr|apply P, El|apply P, El]|].
        intros u. rewrite in_app_iff. apply nth_error_None in Er. rewrite (@nth_overflow _ f (2 * i + 1) []) by lia. cbn [In]. tauto. }
    destruct (IH (S d) g Lg) as (M & Sm & Im); [intros i a E; apply Pg, E|]. exists M. split.
    + cbn [length]. replace (d + S (length rest)) with (S d + length rest) by lia. exact Sm.
    + intros u. rewrite Im, !in_concat_nth. split.
      * intros [i U]. destruct (nth_error up i) as [a|] eqn:E.
        -- apply (proj2 (Pg i a E)) in U as [U|U]; eauto.
        -- apply nth_error_None in E. rewrite nth_overflow in U by lia. destruct U.
      * intros [i U]. assert (Li : i < length low). { destruct (Nat.lt_ge_cases i (length low)) as [X|X]; [exact X|]. rewrite nth_overflow in U by lia. destruct U. }
        pose proof (Nat.div2_odd i) as Di. pose proof (Nat.div2_odd (S (length low))) as Ds. rewrite <- Lu in Ds.
        assert (Lt : Nat.div2 i < length up). { destruct (Nat.odd i), (Nat.odd (S (length low))); cbn [Nat.b2n] in *; lia. }
        destruct (nth_error up (Nat.div2 i)) as [a|] eqn:E; [|apply nth_error_None in E; lia].
        exists (Nat.div2 i). apply (proj2 (Pg _ a E)). destruct (Nat.odd i); cbn [Nat.b2n] in Di; [right|left]; [replace (2 * Nat.div2 i + 1) with i by lia|replace (2 * Nat.div2 i) with i by lia]; exact U.
Qed.
Lemma tree_walk H h hs leaves rows root : tree_of H h hs leaves rows root -> exists L, walk h (length rows) root L /\ forall a, In a L <-> In a leaves.
Proof.
  intros (F & R & N & B). destruct (rows_walk H h leaves rows root R 0 (map (fun a => [a]) leaves)) as (L & SL & IL).
  - apply map_length.
  - intros i a E. destruct (nth_Forall2 _ _ _ F i a E) as (u & Eu & Hh & Hl & _).
    assert (nth i (map (fun u => [u]) leaves) [] = [a]) as ->. { apply nth_error_nth. rewrite nth_error_map, E. reflexivity. }
    apply wk_leaf; assumption.
  - exists L. split; [exact SL|]. intros u. rewrite IL, in_concat. split.
    + intros (x & Ix & U). apply in_map_iff in Ix as (v & <- & Ix). destruct U as [->|[]]. exact Ix.
    + intros Ix. exists [u]. split; [apply in_map_iff; eauto|left; reflexivity].
Qed.
(** the depth-first search over objects *)
Lemma odfs_walk s s' d a L (f : addr -> nat) : walk (heap_now s) d a L -> mw_nodes s' = mw_nodes s ->
  (forall b, In b L -> on_Hash (oderef s b) = Some (f b)) ->
  forall fuel acc, d <= fuel -> odfs fuel s' a acc = Some (Ok (fold_left (oset_add (mw_world s')) (map f L) acc)).
Proof.
  intros W En. assert (D : forall b, oderef s' b = oderef s b) by (intros b; unfold oderef; rewrite En; reflexivity).
  induction W as [a El|d a l r L R El Er Wl IHl Wr IHr]; intros Hf fuel acc F.
  - rewrite deref_now in El. cbn [node_now n_LeftChild] in El. destruct fuel; cbn [odfs]; rewrite D, El, (Hf a (or_introl eq_refl)); reflexivity.
  - rewrite deref_now in El, Er. cbn [node_now n_LeftChild n_RightChild] in El, Er. destruct fuel as [|fuel]; [lia|]. cbn [odfs]. rewrite D, El.
    rewrite IHl by (intros; try apply Hf, in_or_app; auto; lia). rewrite Er. rewrite IHr by (intros; try apply Hf, in_or_app; auto; lia).
    rewrite map_app, fold_left_app. reflexivity.
Qed.

(** ** what every history keeps *)
Lemma objects_ok_app w c o : objects_ok w -> Forall (fun x => match o_data x with DCell l => l < length (cells w ++ c) | DImm _ => True end) o -> objects_ok (mkWorld (cells w ++ c) (objs w ++ o)).
Proof.
  intros O F. unfold objects_ok in *. cbn [cells objs]. apply Forall_app. split; [|exact F]. eapply Forall_impl; [|exact O]. intros x X. cbv beta in *. destruct (o_data x); [rewrite app_length; lia|exact I].
Qed.
Lemma Forall_uupdate {A} (P : A -> Prop) l i x : Forall P l -> P x -> Forall P (M_UIntHeap.update l i x).
Proof. intros F K. revert i. induction F as [|y l Y F IH]; intros [|i]; cbn; constructor; auto. Qed.
Lemma ok_step w op : objects_ok w -> objects_ok (ustep w op).
Proof.
  intros O. destruct op as [b|loc b|cls n [|b|loc]|i st]; cbn [ustep alloc snd].
  - rewrite <- (app_nil_r (objs w)). apply objects_ok_app; [exact O|constructor].
  - unfold objects_ok in *. cbn [cells objs]. rewrite uupdate_length. exact O.
  - unfold add_obj. cbn [cells objs]. apply objects_ok_app; [exact O|]. constructor; [|constructor]. cbn [o_data]. rewrite app_length. cbn [length]. lia.
  - destruct (negb (zlen b =? Z.of_nat n)%Z); [exact O|]. unfold add_obj. cbn [cells objs]. apply objects_ok_app; [exact O|]. constructor; [|constructor]. cbn [o_data]. rewrite app_length. cbn [length]. lia.
  - destruct (loc <? length (cells w)) eqn:L; [|exact O]. destruct (negb (zlen (cell w loc) =? Z.of_nat n)%Z); [exact O|].
    unfold add_obj. rewrite <- (app_nil_r (cells w)). apply objects_ok_app; [exact O|]. constructor; [|constructor]. cbn [o_data]. apply Nat.ltb_lt in L. rewrite app_nil_r. exact L.
  - destruct (nth_error (objs w) i) as [o|]; [|exact O]. destruct (uint_Deserialize (view w o) st) as [[u|e] st']; [|exact O].
    unfold objects_ok in *. cbn [cells objs]. apply Forall_uupdate; [exact O|exact I].
Qed.
Lemma ok_run ops : forall w, objects_ok w -> objects_ok (run_uops ops w).
Proof. induction ops as [|op ops IH]; intros w O; [exact O|]. cbn [run_uops fold_left]. apply IH, ok_step, O. Qed.
Lemma objs_step w op : length (objs w) <= length (objs (ustep w op)).
Proof.
  destruct op as [b|loc b|cls n [|b|loc]|i st]; cbn [ustep alloc snd add_obj objs]; rewrite ?app_length; try lia.
  - destruct (negb (zlen b =? Z.of_nat n)%Z); [lia|]. unfold add_obj. cbn [objs]. rewrite app_length. lia.
  - destruct (loc <? length (cells w)); [|lia]. destruct (negb (zlen (cell w loc) =? Z.of_nat n)%Z); [lia|]. unfold add_obj. cbn [objs]. rewrite app_length. lia.
  - destruct (nth_error (objs w) i) as [o|]; [|lia]. destruct (uint_Deserialize (view w o) st) as [[u|e] st']; [|lia]. cbn [objs]. rewrite uupdate_length. lia.
Qed.
Lemma objs_run ops : forall w, length (objs w) <= length (objs (run_uops ops w)).
Proof. induction ops as [|op ops IH]; intros w; [apply le_n|]. cbn [run_uops fold_left]. pose proof (objs_step w op). specialize (IH (ustep w op)). unfold run_uops in IH. lia. Qed.

(** ** roots depend on the bytes only *)
Lemma pair_up_data H l l' : pair_up H l l' -> forall m, map u_data m = map u_data l -> pair_up H m l'.
Proof.
  induction 1 as [|a u D|a b l u l' D P IH]; intros m E.
  - destruct m; [constructor|discriminate].
  - destruct m as [|x [|y m]]; try discriminate. cbn in E. constructor. unfold digest in *. replace (u_data x) with (u_data a) by congruence. exact D.
  - destruct m as [|x [|y m]]; try discriminate. cbn in E. constructor; [unfold digest in *; replace (u_data x) with (u_data a) by congruence; replace (u_data y) with (u_data b) by congruence; exact D|].
    apply IH. congruence.
Qed.
Lemma root_data H l r m : 2 <= length l -> map u_data m = map u_data l -> merkle_root H l r -> merkle_root H m r.
Proof.
  intros L E M. assert (Em : length m = length l) by (rewrite <- (map_length u_data m), E; apply map_length).
  inversion M as [u|l0 l' r0 L' P R]; subst; [cbn in L; lia|]. eapply mr_up; [lia|exact (pair_up_data _ _ _ P m E)|exact R].
Qed.
Lemma pair_up_uint H l l' : pair_up H l l' -> Forall is_UInt256 l'.
Proof.
  assert (K : forall a b u, digest H a b u -> is_UInt256 u).
  { intros a b u D. apply (init_spec CUInt256 32) in D as (d & [[E _]|[_ L]] & ->); [discriminate E|]. split; [reflexivity|]. split; [exact L|reflexivity]. }
  induction 1; constructor; eauto.
Qed.
Lemma root_uint H l r : 2 <= length l -> merkle_root H l r -> is_UInt256 r.
Proof.
  intros L M. destruct M as [u|l l' r L' P R]; [cbn in L; lia|]. pose proof (pair_up_uint _ _ _ P) as F. clear - R F.
  induction R as [u|l l' r L' P R IH]; [inversion F; assumption|]. apply IH. exact (pair_up_uint _ _ _ P).
Qed.
Lemma uint_data_inj u v : is_UInt256 u -> is_UInt256 v -> u_data u = u_data v -> u = v.
Proof. intros (A & _ & B) (C & _ & D) E. destruct u, v. cbn in *. subst. reflexivity. Qed.
