(** * P_UIntColl: C116 (UInts in sorted(), min(), max()) and C117 (UInts as dict keys). *)
From Coq Require Import Lia ZifyBool ZifyNat Permutation Sorted.
From Verif Require Import M_Py M_UInt M_UIntHeap M_UIntColl S_IO S_IO2 S_UInt S_UIntColl L_Bytes L_IO L_IO2 L_UInt L_UIntColl.

(** ** C116 sorted(), min() and max() of UInts *)
(** [sorts] is any algorithm that sorts every list of ints stably and looks at the items by < only. *)
Theorem C116_sorted : forall sorts l, sorts_ints_stably sorts -> one_size l -> exists out,
  py_sorted sorts l = Ok out /\ Permutation out l /\ StronglySorted (fun a b => rank a <= rank b) out /\
  (forall r, filter (fun u => rank u =? r) out = filter (fun u => rank u =? r) l).
Proof. exact sorted_is. Qed.
Print Assumptions C116_sorted.
(** items which differ in the lowest byte only stay in the order they came in, so equal items need
    not end up next to each other *)
Theorem C116_all_tied : forall sorts l, sorts_ints_stably sorts -> one_size l ->
  (forall a b, In a l -> In b l -> rank a = rank b) -> py_sorted sorts l = Ok l.
Proof. exact sorted_all_tied. Qed.
Print Assumptions C116_all_tied.
Theorem C116_order_of_arrival_matters : forall sorts cls x y r, sorts_ints_stably sorts ->
  let u z := mkUInt cls (z :: r) (GetHashCode (z :: r)) in
  py_sorted sorts [u x; u y] = Ok [u x; u y] /\ py_sorted sorts [u y; u x] = Ok [u y; u x] /\
  py_sorted sorts [u x; u y; u x] = Ok [u x; u y; u x].
Proof.
  intros sorts cls x y r C u.
  assert (H : forall l, (forall a, In a l -> exists z, a = u z) -> py_sorted sorts l = Ok l).
  { intros l H. apply sorted_all_tied; [exact C| |].
    - intros a b Ha Hb. destruct (H a Ha) as [z ->], (H b Hb) as [z' ->]. reflexivity.
    - intros a b Ha Hb. destruct (H a Ha) as [z ->], (H b Hb) as [z' ->]. unfold rank, value_of. cbn [u_data u].
      pose proof (b2z_range z). pose proof (b2z_range z'). rewrite !num_eq. unfold bytes2z, order_bytes. cbn [le2z].
      rewrite !(Z.mul_comm 256), !Z.div_add, !Z.div_small by lia. reflexivity. }
  repeat match goal with |- _ /\ _ => split end; apply H; cbn [In]; intros a; intuition (subst; eauto).
Qed.
Print Assumptions C116_order_of_arrival_matters.
(** without ties the outcome depends only on which items there are *)
Theorem C116_canonical : forall sorts l l', sorts_ints_stably sorts -> one_size l -> no_ties l -> Permutation l l' ->
  py_sorted sorts l = py_sorted sorts l'.
Proof. exact sorted_canonical. Qed.
Print Assumptions C116_canonical.
(** two sizes in one list: an Exception, whatever the order *)
Theorem C116_mixed_sizes : forall sorts l a b, sorts_ints_stably sorts -> In a l -> In b l ->
  length (u_data a) <> length (u_data b) -> py_sorted sorts l = Raise PlainException.
Proof. exact sorted_mixed. Qed.
Print Assumptions C116_mixed_sizes.
(** min() is the first of the items of the smallest rank, max() the first of those of the greatest *)
Theorem C116_min : forall l, one_size l -> l <> [] -> exists u l1 l2, py_min l = Ok u /\ l = l1 ++ u :: l2 /\
  Forall (fun y => rank u < rank y) l1 /\ Forall (fun y => rank u <= rank y) l2.
Proof.
  intros [|x l] O N; [congruence|]. destruct (best_min l x O) as (u & E & [[-> F]|(l1 & l2 & -> & R & F1 & F2)]).
  - exists x, [], l. auto.
  - exists u, (x :: l1), l2. split; [exact E|]. split; [reflexivity|]. split; [constructor; assumption|exact F2].
Qed.
Print Assumptions C116_min.
Theorem C116_max : forall l, one_size l -> l <> [] -> exists u l1 l2, py_max l = Ok u /\ l = l1 ++ u :: l2 /\
  Forall (fun y => rank y < rank u) l1 /\ Forall (fun y => rank y <= rank u) l2.
Proof.
  intros [|x l] O N; [congruence|]. destruct (best_max l x O) as (u & E & [[-> F]|(l1 & l2 & -> & R & F1 & F2)]).
  - exists x, [], l. auto.
  - exists u, (x :: l1), l2. split; [exact E|]. split; [reflexivity|]. split; [constructor; assumption|exact F2].
Qed.
Print Assumptions C116_max.
Theorem C116_min_max_refused : (py_min [] = Raise ValueError /\ py_max [] = Raise ValueError) /\
  forall l a b, In a l -> In b l -> length (u_data a) <> length (u_data b) ->
  py_min l = Raise PlainException /\ py_max l = Raise PlainException.
Proof.
  split; [split; reflexivity|]. intros [|x l] a b Ha Hb L; [destruct Ha|].
  assert (H : exists y, In y l /\ length (u_data y) <> length (u_data x)).
  { destruct Ha as [->|Ha]; [destruct Hb as [->|Hb]; [congruence|exists b; split; [exact Hb|congruence]]|].
    destruct (Nat.eq_dec (length (u_data a)) (length (u_data x))) as [E|E]; [|exists a; auto].
    destruct Hb as [->|Hb]; [congruence|]. exists b. split; [exact Hb|congruence]. }
  destruct H as (y & Hy & Ly). split; apply (best_mixed _ l) with (y := y); try assumption.
  - intros p q E. destruct (ops_spec p q E) as [-> _]. eauto.
  - intros p q E. unfold uint_lt. rewrite CompareTo_size by exact E. reflexivity.
  - intros p q E. destruct (ops_spec p q E) as (_ & -> & _). eauto.
  - intros p q E. unfold uint_gt. rewrite CompareTo_size by exact E. reflexivity.
Qed.
Print Assumptions C116_min_max_refused.
(** insertion sort is such an algorithm *)
Theorem C116_contract_met : sorts_ints_stably insertion_sort.
Proof. exact insertion_sort_ok. Qed.
Print Assumptions C116_contract_met.
Example C116_example :
  let u x y := mkUInt CUIntBase [x; y] (GetHashCode [x; y]) in
  let l := [u x09 x03; u x07 x01; u x01 x02; u x05 x01; u x07 x01] in
  sorts_ints_stably insertion_sort /\ one_size l /\
  py_sorted insertion_sort l = Ok [u x07 x01; u x05 x01; u x07 x01; u x01 x02; u x09 x03] /\
  py_min l = Ok (u x07 x01) /\ py_max l = Ok (u x09 x03) /\
  py_sorted insertion_sort (mkUInt CUIntBase [x00] 0 :: l) = Raise PlainException.
Proof.
  split; [exact insertion_sort_ok|]. split; [|vm_compute; auto].
  intros a b Ha Hb. cbn [In] in Ha, Hb. intuition (subst; reflexivity).
Qed.

(** ** C117 UInts as keys of dicts and members of sets *)
(** As long as no bytearray of a UInt is changed and no key is deserialized into, the dict is the map
    from the bytes of the keys to the values: a UInt of whatever class finds what was stored last
    under a UInt of the same bytes. *)
Theorem C117_map : forall l d m, clean_run empty_dworld no_entry l d m ->
  forall k b, bytes_of (dw_world d) k = Some b -> forall r, dget d k r <-> r = m b.
Proof. intros l d m R k b Hk. apply inv_get; [exact (clean_run_inv _ _ _ _ _ R dinv_empty)|exact Hk]. Qed.
Print Assumptions C117_map.
(** and it has one entry for each byte string that has a value *)
Theorem C117_keys : forall l d m, clean_run empty_dworld no_entry l d m ->
  NoDup (map (fun e => bytes_of (dw_world d) (e_key e)) (dw_dict d)) /\
  (forall b, m b <> None <-> In (Some b) (map (fun e => bytes_of (dw_world d) (e_key e)) (dw_dict d))) /\
  (forall e, In e (dw_dict d) -> exists b, bytes_of (dw_world d) (e_key e) = Some b).
Proof.
  intros l d m R. destruct (clean_run_inv _ _ _ _ _ R dinv_empty) as (_ & H & N & M). split; [exact N|]. split.
  - intros b. rewrite in_map_iff. split.
    + destruct (m b) as [v|] eqn:E; [|congruence]. intros _. apply M in E as (e & He & Q & _). exists e. auto.
    + intros (e & Q & He). assert (m b = Some (e_val e)) by (apply M; exists e; auto). congruence.
  - intros e He. destruct (H e He) as (b & Q & _). exists b. exact Q.
Qed.
Print Assumptions C117_keys.
(** A key built on the caller's bytearray whose content then becomes c: the UInt itself still finds
    its entry; a UInt built afterwards from the bytes x finds it only if x is c and the hash, taken
    from the first four bytes, is still the one of the old bytes b. *)
Theorem C117_mutated_key : forall cls b c v cls' x d,
  druns empty_dworld [DUInt (NewBytearray b); DUInt (Construct cls (length b) (ACell 0)); DSet 0 v;
                      DUInt (Mutate 0 c); DUInt (Construct cls' (length x) (ABytes x))] d ->
  (forall r, dget d 0 r <-> r = Some v) /\
  (x = c -> num LE (firstn 4 b) = num LE (firstn 4 c) -> forall r, dget d 1 r <-> r = Some v) /\
  (~ (x = c /\ num LE (firstn 4 b) = num LE (firstn 4 c)) -> forall r, dget d 1 r <-> r = None).
Proof.
  intros cls b c v cls' x d R. apply (runs_uint [_; _]) in R. apply set_empty in R as (o & Eo & R).
  assert (o = mkObj cls (DCell 0) (GetHashCode b)) as ->.
  { unfold run_uops in Eo. cbn [fold_left ustep alloc snd dw_world empty_dworld] in Eo. unfold cell, zlen in Eo. cbn [cells objs empty_world app length nth Nat.ltb Nat.leb] in Eo.
    rewrite Z.eqb_refl in Eo. cbn [negb add_obj objs app nth_error cells] in Eo. unfold zlen in Eo. cbn [nth] in Eo. congruence. }
  apply (runs_uint [_; _] _ []) in R. cbn [dw_world dw_dict empty_dworld o_hash] in R. rewrite shared_world in R. apply runs_nil in R. subst d.
  set (w := mkWorld _ _). set (e := mkEntry _ _ _).
  assert (E0 : nth_error (objs w) 0 = Some (mkObj cls (DCell 0) (GetHashCode b))) by reflexivity.
  assert (E1 : nth_error (objs w) 1 = Some (mkObj cls' (DCell 1) (GetHashCode x))) by reflexivity.
  assert (H : hits w 1 e <-> x = c /\ num LE (firstn 4 b) = num LE (firstn 4 c)).
  { rewrite (hits_of w 1 _ e _ E1 E0). cbn [e_hash e_key o_hash data_of o_data cell cells nth w e]. rewrite !hash_of.
    change (c = x) with (c = x). split.
    - intros [Hh [Q|Q]]; [discriminate|]. unfold cell in Q. cbn [cells nth] in Q. split; [congruence|]. rewrite Q. exact Hh.
    - intros [-> Hh]. split; [exact Hh|]. right. reflexivity. }
  assert (M : may_hit w 1 e <-> x = c /\ num LE (firstn 4 b) = num LE (firstn 4 c)).
  { unfold may_hit. rewrite H. cbn [e_key e]. intuition discriminate. }
  split; [|split].
  - intros r. rewrite (dget_single w e 0 _ E0). cbn [e_val e]. assert (Hh : hits w 0 e) by (apply (hits_of w 0 _ e _ E0 E0); auto).
    unfold may_hit. split; [intros [[-> _]|[_ N]]; [reflexivity|contradiction]|intros ->; left; auto].
  - intros Q Hh r. rewrite (dget_single w e 1 _ E1). cbn [e_val e]. rewrite H, M. intuition.
  - intros N r. rewrite (dget_single w e 1 _ E1). rewrite H, M. intuition.
Qed.
Print Assumptions C117_mutated_key.
(** so one dict can come to have two entries whose keys are equal *)
Theorem C117_two_equal_keys : forall cls b c v cls' v' d, num LE (firstn 4 b) <> num LE (firstn 4 c) ->
  druns empty_dworld [DUInt (NewBytearray b); DUInt (Construct cls (length b) (ACell 0)); DSet 0 v;
                      DUInt (Mutate 0 c); DUInt (Construct cls' (length c) (ABytes c)); DSet 1 v'] d ->
  map (fun e => (bytes_of (dw_world d) (e_key e), e_val e)) (dw_dict d) = [(Some c, v); (Some c, v')].
Proof.
  intros cls b c v cls' v' d N R. apply (runs_uint [_; _]) in R. apply set_empty in R as (o & Eo & R).
  assert (o = mkObj cls (DCell 0) (GetHashCode b)) as ->.
  { unfold run_uops in Eo. cbn [fold_left ustep alloc snd dw_world empty_dworld] in Eo. unfold cell, zlen in Eo. cbn [cells objs empty_world app length nth Nat.ltb Nat.leb] in Eo.
    rewrite Z.eqb_refl in Eo. cbn [negb add_obj objs app nth_error cells] in Eo. unfold zlen in Eo. cbn [nth] in Eo. congruence. }
  apply (runs_uint [_; _] _ [_]) in R. cbn [dw_world dw_dict empty_dworld o_hash] in R. rewrite shared_world in R.
  apply step_inv in R as (d1 & S & R). apply runs_nil in R. subst d1. set (w := mkWorld _ _) in *. set (e := mkEntry _ _ _) in *.
  assert (E0 : nth_error (objs w) 0 = Some (mkObj cls (DCell 0) (GetHashCode b))) by reflexivity.
  assert (E1 : nth_error (objs w) 1 = Some (mkObj cls' (DCell 1) (GetHashCode c))) by reflexivity.
  assert (H : ~ hits w 1 e).
  { rewrite (hits_of w 1 _ e _ E1 E0). cbn [e_hash o_hash e]. rewrite !hash_of. intros [Q _]. contradiction. }
  inversion S as [|k' v1 i e' L Ei|k' v1 o L Eo'| |]; subst.
  - exfalso. cbn [dw_dict] in Ei. destruct i as [|i]; [|destruct i; discriminate]. cbn [nth_error] in Ei. assert (e' = e) as -> by congruence.
    inversion L as [i' e2 Ei' Hm|]; subst. cbn [dw_dict nth_error] in Ei'. assert (e2 = e) as -> by congruence. destruct Hm as [Hm|[Hm _]]; [contradiction|discriminate].
  - reflexivity.
Qed.
Print Assumptions C117_two_equal_keys.
(** A key that is deserialized into, the new bytes' hash being another one: no UInt built afterwards
    finds its entry, whatever its bytes; the UInt itself need not find it either. *)
Theorem C117_deserialized_key : forall cls b v s cls' x d, Z.of_nat (length b) <= maxsize ->
  num LE (firstn 4 (firstn (length b) (remaining s))) <> num LE (firstn 4 b) ->
  druns empty_dworld [DUInt (Construct cls (length b) (ABytes b)); DSet 0 v;
                      DUInt (DeserializeAt 0 s); DUInt (Construct cls' (length x) (ABytes x))] d ->
  (forall r, dget d 1 r <-> r = None) /\ (forall r, dget d 0 r <-> r = None \/ r = Some v).
Proof.
  intros cls b v s cls' x d Lb N R. apply (runs_uint [_]) in R. apply set_empty in R as (o & Eo & R).
  apply (runs_uint [_; _] _ []) in R. apply runs_nil in R. cbn [dw_world dw_dict empty_dworld] in *. rewrite desert_world1 in Eo, R.
  cbn [objs nth_error] in Eo. assert (o = mkObj cls (DCell 0) (GetHashCode b)) as -> by congruence. rewrite (desert_world2 cls b s cls' x Lb) in R. subst d. clear Eo.
  set (c := firstn (length b) (remaining s)) in *. set (w := mkWorld _ _). set (e := mkEntry _ _ _).
  assert (E0 : nth_error (objs w) 0 = Some (mkObj cls (DImm c) (GetHashCode c))) by reflexivity.
  assert (E1 : nth_error (objs w) 1 = Some (mkObj cls' (DCell 1) (GetHashCode x))) by reflexivity.
  assert (H1 : ~ hits w 1 e).
  { rewrite (hits_of w 1 _ e _ E1 E0). cbn [e_hash e_key o_hash data_of o_data e]. unfold cell. cbn [cells nth w]. rewrite !hash_of. intros [Q [Z'|Z']]; [discriminate|]. rewrite Z' in N. congruence. }
  assert (H0 : ~ hits w 0 e).
  { rewrite (hits_of w 0 _ e _ E0 E0). cbn [e_hash o_hash e]. rewrite !hash_of. intros [Q _]. congruence. }
  split; intros r.
  - rewrite (dget_single w e 1 _ E1). unfold may_hit. cbn [e_key e]. intuition discriminate.
  - rewrite (dget_single w e 0 _ E0). unfold may_hit. cbn [e_key e_val e]. assert (0 < length (objs w))%nat by (cbn [objs w length]; lia). intuition.
Qed.
Print Assumptions C117_deserialized_key.
Example C117_example :
  let k x y := [x; x01; x02; x03; y] in
  (* a clean history: two UInts of the same bytes and different classes, one of other bytes *)
  (exists d m, clean_run empty_dworld no_entry
     [DUInt (Construct CUIntBase 5 (ABytes (k x00 x00))); DSet 0 7; DUInt (NewBytearray (k x00 x00)); DUInt (Construct CUInt160 5 (ACell 1));
      DSet 1 8; DUInt (Construct CUIntBase 5 (ABytes (k x09 x00))); DSet 2 9; DUInt (Construct CUIntBase 5 (ABytes (k x09 x00))); DDel 3] d m /\
     dw_dict d = [mkEntry 50462976 0 8] /\ m (k x00 x00) = Some 8 /\ m (k x09 x00) = None) /\
  (* the histories of the negative theorems *)
  (exists d, druns empty_dworld [DUInt (NewBytearray (k x00 x00)); DUInt (Construct CUIntBase 5 (ACell 0)); DSet 0 7;
                      DUInt (Mutate 0 (k x09 x00)); DUInt (Construct CUIntBase 5 (ABytes (k x09 x00))); DSet 1 8] d) /\
  (exists d, druns empty_dworld [DUInt (Construct CUIntBase 5 (ABytes (k x00 x00))); DSet 0 7;
                      DUInt (DeserializeAt 0 (mkStream (k x09 x00) 0)); DUInt (Construct CUIntBase 5 (ABytes (k x09 x00)))] d).
Proof.
  assert (U : forall d m u l d' m', keys_alone d (DUInt u) -> clean_run (mkDW (ustep (dw_world d) u) (dw_dict d)) m l d' m' -> clean_run d m (DUInt u :: l) d' m').
  { intros. eapply clean_cons; [apply step_uint|assumption|assumption]. }
  split; [|split].
  - eexists _, _. split.
    + apply U; [split; exact I|]. eapply clean_cons; [eapply step_add; [eapply look_miss; [reflexivity|constructor]|reflexivity]|exact I|].
      apply U; [split; exact I|]. apply U; [split; exact I|].
      eapply clean_cons; [eapply step_replace; [eapply (look_hit _ _ 0); [reflexivity|do 2 eexists; repeat apply conj; vm_compute; reflexivity]|reflexivity]|exact I|].
      apply U; [split; exact I|].
      eapply clean_cons; [eapply step_add; [eapply look_miss; [reflexivity|]|reflexivity]|exact I|].
      { constructor; [|constructor]. eexists. split; [vm_compute; reflexivity|]. vm_compute. intros [Q _]. discriminate. }
      apply U; [split; exact I|].
      eapply clean_cons; [eapply (step_del _ _ 1); eapply (look_hit _ _ 1); [reflexivity|do 2 eexists; repeat apply conj; vm_compute; reflexivity]|exact I|].
      apply clean_nil.
    + vm_compute. auto.
  - eexists. eapply run_cons; [constructor|]. eapply run_cons; [constructor|].
    eapply run_cons; [eapply step_add; [eapply look_miss; [reflexivity|constructor]|reflexivity]|].
    eapply run_cons; [constructor|]. eapply run_cons; [constructor|].
    eapply run_cons; [eapply step_add; [eapply look_miss; [reflexivity|]|reflexivity]|apply run_nil].
    constructor; [|constructor]. eexists. split; [vm_compute; reflexivity|]. vm_compute. intros [Q _]. discriminate.
  - eexists. eapply run_cons; [constructor|].
    eapply run_cons; [eapply step_add; [eapply look_miss; [reflexivity|constructor]|reflexivity]|].
    eapply run_cons; [constructor|]. eapply run_cons; [constructor|apply run_nil].
Qed.
