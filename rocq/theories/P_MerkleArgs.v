(** * P_MerkleArgs: C109 (MerkleTree with the documented arguments) *)
From Coq Require Import ZArith Lia List Arith ZifyBool ZifyNat String.
From Verif Require Import M_Py M_Hash M_UInt M_Helper M_ECCurve M_Merkle M_MerkleArgs L_FloatDiv L_Bytes S_IO S_IO2 S_UInt S_Merkle L_Merkle L_Merkle2 P_Merkle.
Import ListNotations.
Open Scope Z_scope.
Local Notation length := List.length.

Ltac cb := cbn [set_LeftChild set_Parent set_RightChild set_Hash n_LeftChild n_RightChild n_Hash n_Parent].
(** a pass of the loop that meets a leaf without UInt *)
Lemma build_step_fails H (leaves parents : list addr) i h (node left right : addr) :
  nth i parents 0%nat = node -> nth (i * 2) leaves 0%nat = left ->
  ((i * 2 + 1 = length leaves)%nat /\ right = left \/ (i * 2 + 1 <> length leaves)%nat /\ nth (i * 2 + 1) leaves 0%nat = right) ->
  (node < length h)%nat -> (left < length h)%nat -> (right < length h)%nat -> node <> left -> node <> right ->
  n_Hash (deref h left) = None \/ n_Hash (deref h right) = None ->
  exists h', build_step H leaves parents i h = (Raise AttributeError, h') /\ length h' = length h /\
    forall a, a <> node -> n_Hash (deref h' a) = n_Hash (deref h a).
Proof.
  intros En El Er Bn Bl Br Nl Nr D. unfold build_step. rewrite En, El. unfold hset, hbind, hget, hlift. cbn [fst snd].
  destruct Er as [[E ->]|[E Er]].
  - rewrite (proj2 (Nat.eqb_eq _ _) E). upd. cb. upd. cb. unfold hash_array. upd. cb. assert (Hl : n_Hash (deref h left) = None) by tauto. rewrite Hl. cbn [rbind].
    eexists. split; [reflexivity|]. upd. split; [reflexivity|]. intros a A. destruct (Nat.eq_dec a left) as [->|]; upd; reflexivity.
  - rewrite (proj2 (Nat.eqb_neq _ _) E). rewrite Er. destruct (Nat.eq_dec left right) as [->|Nlr].
    + upd. cb. unfold hash_array. upd. cb. assert (Hl : n_Hash (deref h right) = None) by tauto. rewrite Hl. cbn [rbind].
      eexists. split; [reflexivity|]. upd. split; [reflexivity|]. intros a A. destruct (Nat.eq_dec a right) as [->|]; upd; reflexivity.
    + upd. cb. unfold hash_array. upd. cb.
      assert (X : (do l <- match n_Hash (deref h left) with Some u => Ok (ToArray u) | None => Raise AttributeError end; do r <- match n_Hash (deref h right) with Some u => Ok (ToArray u) | None => Raise AttributeError end; Ok (l ++ r)) = Raise AttributeError).
      { destruct (n_Hash (deref h left)), (n_Hash (deref h right)); cbn [rbind]; try reflexivity. destruct D; discriminate. }
      rewrite X. eexists. split; [reflexivity|]. upd. split; [reflexivity|]. intros a A.
      destruct (Nat.eq_dec a left) as [->|]; upd; cb; [reflexivity|]. destruct (Nat.eq_dec a right) as [->|]; upd; reflexivity.
Qed.
Definition needs (h : heap) (leaves : list addr) (i : nat) : Prop :=
  n_Hash (deref h (nth (i * 2) leaves 0%nat)) <> None /\ n_Hash (deref h (nth (ri (length leaves) i) leaves 0%nat)) <> None.
(** a pass of the loop over leaves some of which have no UInt *)
Lemma step_any H leaves b np i h : hash_ok H -> Forall (fun a => a < b)%nat leaves -> np = Nat.div2 (S (length leaves)) -> (i < np)%nat -> (b + np <= length h)%nat ->
  exists h', length h' = length h /\ (forall a, (a < b)%nat -> n_Hash (deref h' a) = n_Hash (deref h a)) /\
    (needs h leaves i /\ build_step H leaves (seq b np) i h = (Ok tt, h') \/ ~ needs h leaves i /\ build_step H leaves (seq b np) i h = (Raise AttributeError, h')).
Proof.
  intros O LB En Hi Lh. pose proof (div2_le i (length leaves) ltac:(lia)) as I2. pose proof (ri_lt i (length leaves) ltac:(lia)) as I3.
  set (node := (b + i)%nat). set (left := nth (i * 2) leaves 0%nat). set (right := nth (ri (length leaves) i) leaves 0%nat).
  assert (Bl : (left < b)%nat) by (rewrite Forall_forall in LB; apply LB, nth_In; lia). assert (Br : (right < b)%nat) by (rewrite Forall_forall in LB; apply LB, nth_In; lia).
  assert (Enode : nth i (seq b np) 0%nat = node) by (apply seq_nth; exact Hi).
  assert (Eright : (i * 2 + 1 = length leaves)%nat /\ right = left \/ (i * 2 + 1 <> length leaves)%nat /\ nth (i * 2 + 1) leaves 0%nat = right).
  { unfold right, ri. destruct (Nat.eqb_spec (i * 2 + 1) (length leaves)) as [E|E]; [left|right]; auto. }
  destruct (n_Hash (deref h left)) as [hl|] eqn:Hl; [destruct (n_Hash (deref h right)) as [hr|] eqn:Hr|].
  - destruct (digest_exists H hl hr O) as [u D].
    destruct (build_step_spec H leaves (seq b np) i h node left right hl hr u Enode eq_refl Eright) as (h' & E & L & A1 & A2 & A3 & A4); try (unfold node; lia); try assumption.
    exists h'. split; [exact L|]. split.
    + intros a A. destruct (Nat.eq_dec a left) as [->|]; [rewrite A2; reflexivity|]. destruct (Nat.eq_dec a right) as [->|]; [rewrite A3; reflexivity|]. rewrite A4 by (unfold node; lia). reflexivity.
    + left. split; [|exact E]. change (n_Hash (deref h left) <> None /\ n_Hash (deref h right) <> None). split; congruence.
  - destruct (build_step_fails H leaves (seq b np) i h node left right Enode eq_refl Eright) as (h' & E & L & A); try (unfold node; lia); [right; exact Hr|].
    exists h'. split; [exact L|]. split; [intros a Ha; apply A; unfold node; lia|]. right. split; [|exact E]. change (~ (n_Hash (deref h left) <> None /\ n_Hash (deref h right) <> None)). tauto.
  - destruct (build_step_fails H leaves (seq b np) i h node left right Enode eq_refl Eright) as (h' & E & L & A); try (unfold node; lia); [left; exact Hl|].
    exists h'. split; [exact L|]. split; [intros a Ha; apply A; unfold node; lia|]. right. split; [|exact E]. change (~ (n_Hash (deref h left) <> None /\ n_Hash (deref h right) <> None)). tauto.
Qed.
Lemma loop_any H leaves b np : hash_ok H -> Forall (fun a => a < b)%nat leaves -> np = Nat.div2 (S (length leaves)) -> forall m i h, (i + m = np)%nat -> (b + np <= length h)%nat ->
  (exists j, (i <= j < np)%nat /\ ~ needs h leaves j) -> exists h', hfor (seq i m) (build_step H leaves (seq b np)) h = (Raise AttributeError, h').
Proof.
  intros O LB En. assert (T : forall k, (k < length leaves)%nat -> (nth k leaves 0 < b)%nat) by (intros k K; rewrite Forall_forall in LB; apply LB, nth_In, K).
  induction m as [|m IH]; intros i h Im Lh (j & J & Nj); [lia|]. cbn [seq hfor]. unfold hbind.
  destruct (step_any H leaves b np i h O LB En ltac:(lia) Lh) as (h' & L & Fr & [[Ni E]|[Ni E]]); rewrite E; [|eauto].
  apply (IH (S i) h'); [lia|lia|]. exists j. assert (j <> i) by (intros ->; tauto). split; [lia|]. intros Hj. apply Nj. unfold needs in *.
  pose proof (div2_le j (length leaves) ltac:(lia)). pose proof (ri_lt j (length leaves) ltac:(lia)). pose proof (Fr _ (T (j * 2)%nat ltac:(lia))) as F1. pose proof (Fr _ (T (ri (length leaves) j) ltac:(lia))) as F2. destruct Hj as [A1 A2]. split; [intros X; apply A1; etransitivity; [exact F1|exact X]|intros X; apply A2; etransitivity; [exact F2|exact X]].
Qed.

Lemma build_row (leaves : list addr) fuel H h np e h' : (2 <= length leaves)%nat -> zlen leaves < 2 ^ 53 - 1 -> np = Nat.div2 (S (length leaves)) ->
  hfor (seq 0 np) (build_step H leaves (seq (length h) np)) (h ++ repeat (new_node None) np) = (Raise e, h') -> build (S fuel) H leaves h = Some (Raise e, h').
Proof.
  intros L B -> E. destruct leaves as [|x [|y rest]]; [cbn in L; lia|cbn in L; lia|]. set (leaves := x :: y :: rest) in *.
  cbn [build]. fold leaves. unfold zlen at 1. rewrite int_div_2 by (unfold zlen in *; lia). rewrite div2_Z. unfold halloc, hbind, hret. rewrite repeat_length. rewrite E. reflexivity.
Qed.

(** ** C109 The documented arguments *)
(** Of two or more elements, one that is not a UInt object - such as the documented bytearray -
    makes the constructor and ComputeRoot raise AttributeError. *)
Theorem C109_other_elements : forall H xs h v, hash_ok H -> (2 <= length xs)%nat -> zlen xs < 2 ^ 53 - 1 -> In (MVal v) xs ->
  (exists h', new_MerkleTree_any H xs h = Some (Raise AttributeError, h')) /\ ComputeRoot_any H xs = Some (Raise AttributeError).
Proof.
  intros H xs h v O L B I.
  assert (G : forall h, exists h', new_MerkleTree_any H xs h = Some (Raise AttributeError, h')).
  { clear h. intros h. unfold new_MerkleTree_any. set (h0 := h ++ map (fun x => new_node (as_hash x)) xs). set (b := length h0). set (leaves := seq (length h) (length xs)).
    assert (Ll : length leaves = length xs) by apply seq_length. assert (Lb : b = (length h + length xs)%nat) by (unfold b, h0; rewrite app_length, map_length; reflexivity).
    assert (LB : Forall (fun a => a < b)%nat leaves) by (apply Forall_forall; intros a A; apply in_seq in A; lia).
    set (np := Nat.div2 (S (length leaves))).
    destruct (In_nth xs (MVal v) (MUInt u0) I) as (k & K & E).
    assert (Hk : n_Hash (deref (h0 ++ repeat (new_node None) np) (nth k leaves 0%nat)) = None).
    { unfold leaves. rewrite seq_nth by exact K. rewrite deref_app by (fold b; lia). unfold deref, h0. rewrite app_nth2 by lia. rewrite Nat.add_comm, Nat.add_sub.
      rewrite (nth_indep _ _ (new_node (as_hash (MUInt u0)))) by (rewrite map_length; exact K). rewrite (map_nth (fun x => new_node (as_hash x))), E. reflexivity. }
    destruct (loop_any H leaves b np O LB eq_refl np 0 (h0 ++ repeat (new_node None) np)) as [h' Eh]; [lia|rewrite app_length, repeat_length; fold b; lia| |].
    - exists (Nat.div2 k). split; [split; [lia|apply div2_up_lt; lia]|]. intros [N1 N2]. destruct (div2_ri (length leaves) k ltac:(lia)) as [D|D]; [apply N1|apply N2]; (etransitivity; [|exact Hk]); do 3 f_equal; symmetry; exact D.
    - exists h'. assert (Bu : build (length xs) H leaves h0 = Some (Raise AttributeError, h')); [|rewrite Bu; reflexivity].
      assert (Bl : Z.of_nat (length leaves) < 2 ^ 53 - 1) by (rewrite Ll; exact B).
      assert (L2 : (2 <= length leaves)%nat) by (rewrite Ll; exact L). destruct (length xs) as [|fuel] eqn:Ex; [lia|]. apply (build_row leaves fuel H h0 np); [exact L2|exact Bl|reflexivity|exact Eh]. }
  split; [apply G|]. destruct xs as [|x [|y xs]]; [cbn in L; lia|cbn in L; lia|]. cbn [ComputeRoot_any]. destruct (G []) as [h' E]. rewrite E. reflexivity.
Qed.
Print Assumptions C109_other_elements.
(** UInt objects only: the same as before *)
Theorem C109_uints : forall H hs h, new_MerkleTree_any H (map MUInt hs) h = new_MerkleTree H hs h /\
  ComputeRoot_any H (map MUInt hs) = match ComputeRoot H hs with Some (Ok r) => Some (Ok (MUInt r)) | Some (Raise e) => Some (Raise e) | None => None end.
Proof.
  intros H hs h. assert (G : forall h, new_MerkleTree_any H (map MUInt hs) h = new_MerkleTree H hs h) by (intros k; unfold new_MerkleTree_any, new_MerkleTree; rewrite map_length, map_map; reflexivity).
  split; [apply G|]. destruct hs as [|a [|b l]]; [reflexivity|reflexivity|]. unfold ComputeRoot_any, ComputeRoot. cbn [map]. specialize (G []). cbn [map] in G. rewrite G.
  destruct (new_MerkleTree H (a :: b :: l) []) as [[[t|e] k]|]; try reflexivity. destruct (n_Hash (deref k (t_Root t))); reflexivity.
Qed.
Print Assumptions C109_uints.
(** a single element of any type is its own root, without being looked at, and makes a tree of depth
    1; but a single bytearray cannot be listed *)
Theorem C109_one_element : forall H x h, ComputeRoot_any H [x] = Some (Ok x) /\
  (exists h', new_MerkleTree_any H [x] h = Some (Ok (mkTree (length h) 1), h') /\ n_Hash (deref h' (length h)) = as_hash x) /\
  (forall b, x = MVal (VBytearray b) -> ToHashArray_one x = Some (Raise TypeError)) /\ (forall b, x = MVal (VBytes b) -> ToHashArray_one x = Some (Ok [x])).
Proof.
  intros H x h. split; [reflexivity|]. split; [|split; intros b ->; reflexivity].
  assert (E : deref (h ++ [new_node (as_hash x)]) (length h) = new_node (as_hash x)) by (unfold deref; rewrite app_nth2, Nat.sub_diag by lia; reflexivity).
  exists (h ++ [new_node (as_hash x)]). split; [|rewrite E; reflexivity]. unfold new_MerkleTree_any. cbn [map length seq build].
  destruct (length (h ++ [new_node (as_hash x)])); cbn [left_depth]; rewrite E; reflexivity.
Qed.
Print Assumptions C109_one_element.
(** Trim with a text, such as the documented "0000", always raises and changes nothing *)
Theorem C109_trim_text : forall t s h, Trim_any t (FVal (VStr s)) h = Some (Raise TypeError, h).
Proof. reflexivity. Qed.
Print Assumptions C109_trim_text.
(** the same characters as bytes keep every node, whatever follows: the character 0 is not the byte 0 *)
Theorem C109_trim_ascii : forall H hs h0 t h rest, hash_ok H -> zlen hs < 2 ^ 53 - 1 -> new_MerkleTree H hs h0 = Some (Ok t, h) ->
  Trim_any t (FVal (VBytes (bstr "0" ++ rest))) h = Some (Ok tt, h) /\ Trim_any t (FVal (VBytearray (bstr "0" ++ rest))) h = Some (Ok tt, h).
Proof.
  intros H hs h0 t h rest O B E. assert (N : hs <> []) by (intros ->; rewrite (proj2 (C55_empty H) h0) in E; discriminate).
  destruct (C56_shape H hs h0 O N B) as (t' & h' & leaves & rows & E' & T & D & _). assert (t' = t) as -> by congruence. assert (h' = h) as -> by congruence.
  destruct (C58_trim H h hs leaves rows t (bstr "0" ++ rest) T D) as [K _]. assert (K' : Trim t (bstr "0" ++ rest) h = Some (Ok tt, h)) by (apply K; left; discriminate). split; exact K'.
Qed.
Print Assumptions C109_trim_ascii.
(** a number does not depend on its value: Trim(n) is Trim(b'') for n >= 0 (all children are removed) and raises for n < 0 *)
Theorem C109_trim_number : forall t n h, (0 <= n < 2 ^ 63 -> forall H hs h0, hash_ok H -> zlen hs < 2 ^ 53 - 1 -> new_MerkleTree H hs h0 = Some (Ok t, h) ->
    Trim_any t (FVal (VInt n)) h = Trim_any t (FVal (VBytes [])) h /\ exists h', Trim_any t (FVal (VInt n)) h = Some (Ok tt, h') /\ IsLeaf h' (t_Root t) = true) /\
  (- 2 ^ 63 <= n < 0 -> Trim_any t (FVal (VInt n)) h = Some (Raise ValueError, h)).
Proof.
  intros t n h. split.
  - intros R H hs h0 O B E. assert (Q : Trim_any t (FVal (VInt n)) h = Trim t (repeat x00 (Z.to_nat n)) h).
    { unfold Trim_any, bytearray_of. cbn [as_int]. rewrite (proj2 (Z.leb_gt _ _)), !(proj2 (Z.ltb_ge _ _)) by lia. reflexivity. }
    rewrite Q. assert (N : hs <> []) by (intros ->; rewrite (proj2 (C55_empty H) h0) in E; discriminate).
    destruct (C56_shape H hs h0 O N B) as (t' & h' & leaves & rows & E' & T & D & _). assert (t' = t) as -> by congruence. assert (h' = h) as -> by congruence.
    assert (Z0 : forall i m, nth i (repeat x00 m) x00 = x00) by (intros i m; revert i; induction m as [|m IH]; intros [|i]; try reflexivity; apply IH).
    destruct (proj2 (C58_trim H h hs leaves rows t (repeat x00 (Z.to_nat n)) T D) (conj (Z0 _ _) (Z0 _ _))) as (h1 & E1 & W1).
    destruct (proj2 (C58_trim H h hs leaves rows t [] T D) (conj eq_refl eq_refl)) as (h2 & E2 & W2).
    assert (h2 = h1) as -> by (exact (without_unique h h2 h1 (concat rows) W2 W1)). split; [cbn [Trim_any bytearray_of]; congruence|].
    exists h1. split; [exact E1|]. destruct W1 as [_ W1]. destruct T as (F & R' & _). inversion R' as [a P|low up rest root L2 A R2]; subst.
    + assert (X : t_Root t = t_Root t) by reflexivity. unfold IsLeaf. rewrite (proj2 (W1 (t_Root t))) by (intros []). inversion F as [|? ? ? ? (_ & A1 & A2)]; subst. rewrite A1, A2. reflexivity.
    + assert (I : In (t_Root t) (concat (up :: rest))).
      { clear -R2. cbn [concat]. apply in_or_app. revert R2. generalize (t_Root t). intros a R. induction R; [left; left; reflexivity|]. right. cbn [concat]. apply in_or_app. exact IHR. }
      unfold IsLeaf. rewrite (proj1 (W1 (t_Root t)) I). reflexivity.
  - intros R. unfold Trim_any, bytearray_of. cbn [as_int]. rewrite (proj2 (Z.leb_gt _ _)), (proj2 (Z.ltb_ge n _)), (proj2 (Z.ltb_lt n 0)) by lia. reflexivity.
Qed.
Print Assumptions C109_trim_number.
(** a list of flags stands for its bytes, and is refused when one is not in range(256) *)
Theorem C109_trim_list : forall t l h,
  (forall b, Forall2 (fun v x => as_int v = Some (b2z x)) l b -> Trim_any t (FList l) h = Trim_any t (FVal (VBytes b)) h) /\
  (~ (exists b, Forall2 (fun v x => as_int v = Some (b2z x)) l b) -> exists e, (e = ValueError \/ e = TypeError) /\ Trim_any t (FList l) h = Some (Raise e, h)).
Proof.
  intros t l h. assert (B : forall v x, as_int v = Some (b2z x) -> byte_of v = Ok x).
  { intros v x E. unfold byte_of. rewrite E. pose proof (b2z_range x) as R. rewrite (proj2 (Z.leb_le 0 _)), (proj2 (Z.ltb_lt _ 256)) by lia. cbn [andb]. rewrite z2b_b2z. reflexivity. }
  assert (C : forall v x, byte_of v = Ok x -> as_int v = Some (b2z x)).
  { intros v x E. unfold byte_of in E. destruct (as_int v) as [z|]; [|discriminate]. destruct ((0 <=? z) && (z <? 256)) eqn:R; [|discriminate]. assert (x = z2b z) as -> by congruence. rewrite b2z_z2b, Z.mod_small by lia. reflexivity. }
  assert (D : forall b, Forall2 (fun v x => as_int v = Some (b2z x)) l b <-> bytes_of_list l = Ok b).
  { induction l as [|v r IH]; intros b; split; intros E.
    - inversion E. reflexivity.
    - cbn in E. assert (b = []) as -> by congruence. constructor.
    - inversion E as [|? x ? bs E1 E2]; subst. cbn [bytes_of_list]. rewrite (B v x E1). cbn [rbind]. rewrite (proj1 (IH bs) E2). reflexivity.
    - cbn [bytes_of_list] in E. destruct (byte_of v) as [x|] eqn:Ev; [|discriminate]. cbn [rbind] in E. destruct (bytes_of_list r) as [bs|] eqn:Er; [|discriminate]. cbn [rbind] in E. assert (b = x :: bs) as -> by congruence.
      constructor; [exact (C v x Ev)|]. apply IH. reflexivity. }
  split.
  - intros b F. apply D in F. unfold Trim_any, bytearray_of. rewrite F. reflexivity.
  - intros N. unfold Trim_any, bytearray_of. destruct (bytes_of_list l) as [b|e] eqn:E; [exfalso; apply N; exists b; apply D; reflexivity|].
    exists e. split; [|reflexivity]. clear -E. revert e E. induction l as [|v r IH]; intros e E; [discriminate|]. cbn [bytes_of_list] in E.
    unfold byte_of in E. destruct (as_int v) as [z|]; [|cbn in E; right; congruence]. destruct ((0 <=? z) && (z <? 256)); [|cbn in E; left; congruence]. cbn [rbind] in E.
    destruct (bytes_of_list r) as [bs|e']; [discriminate|]. cbn [rbind] in E. assert (e = e') as -> by congruence. apply IH. reflexivity.
Qed.
Print Assumptions C109_trim_list.
Example C109_example : ComputeRoot_any real_hashes [MVal (VBytearray (repeat x01 32)); MVal (VBytearray (repeat x02 32))] = Some (Raise AttributeError) /\
  match new_MerkleTree real_hashes leaves3 [] with
  | Some (Ok t, h) => Trim_any t (FVal (VStr (str "0000"))) h = Some (Raise TypeError, h) /\ Trim_any t (FVal (VBytes (bstr "0000"))) h = Some (Ok tt, h) /\
      Trim_any t (FList [VInt 0; VInt 0; VInt 1; VInt 1]) h = Trim_any t (FVal (VInt 7)) h /\ Trim_any t (FVal (VInt 7)) h <> Some (Ok tt, h)
  | _ => False
  end.
Proof.
  split; [apply (C109_other_elements real_hashes _ [] (VBytearray (repeat x01 32))); [exact real_hashes_ok|cbn; lia|reflexivity|left; reflexivity]|].
  vm_compute. repeat split. discriminate.
Qed.
