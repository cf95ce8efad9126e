(** * L_Merkle: the heap after __Build *)
From Coq Require Import ZArith Lia List Arith.
From Verif Require Import M_Py M_Hash M_UInt M_Helper M_ECCurve M_Merkle L_Bytes L_FloatDiv S_Merkle.
Import ListNotations.
Local Open Scope nat_scope.

Lemma update_length {A} n f (l : list A) : length (update n f l) = length l.
Proof. revert n. induction l as [|x l IH]; intros [|n]; cbn; auto. Qed.
Lemma deref_same h a f : (a < length h)%nat -> deref (update a f h) a = f (deref h a).
Proof. unfold deref. revert a. induction h as [|n h IH]; intros [|a] L; cbn in *; try lia; [reflexivity|]. apply IH. lia. Qed.
Lemma deref_other h a b f : a <> b -> deref (update a f h) b = deref h b.
Proof. unfold deref. revert a b. induction h as [|n h IH]; intros [|a] [|b] L; cbn; try reflexivity; try lia. apply IH. lia. Qed.
Lemma deref_app h l a : (a < length h)%nat -> deref (h ++ l) a = deref h a.
Proof. intros L. unfold deref. apply app_nth1, L. Qed.
Lemma deref_new h n i : (i < n)%nat -> deref (h ++ repeat (new_node None) n) (length h + i) = new_node None.
Proof. intros L. unfold deref. rewrite app_nth2 by lia. replace (length h + i - length h)%nat with i by lia. apply nth_repeat. Qed.
Ltac upd := repeat first [rewrite deref_same by (rewrite ?update_length; lia) | rewrite deref_other by lia | rewrite update_length].

Lemma digest_exists H a b : hash_ok H -> exists u, digest H a b u.
Proof. intros [O _]. unfold digest, new_UInt256, UIntBase_init. cbn [py_len rbind]. unfold zlen. rewrite O. cbn. eauto. Qed.
Lemma digest_fun H a b u v : digest H a b u -> digest H a b v -> u = v.
Proof. unfold digest. congruence. Qed.

(** one pass of the loop *)
Lemma build_step_spec H (leaves parents : list addr) i h (node left right : addr) hl hr u :
  nth i parents 0%nat = node -> nth (i * 2) leaves 0%nat = left ->
  ((i * 2 + 1 = length leaves)%nat /\ right = left \/ (i * 2 + 1 <> length leaves)%nat /\ nth (i * 2 + 1) leaves 0%nat = right) ->
  (node < length h)%nat -> (left < length h)%nat -> (right < length h)%nat -> node <> left -> node <> right ->
  n_Hash (deref h left) = Some hl -> n_Hash (deref h right) = Some hr -> digest H hl hr u ->
  exists h', build_step H leaves parents i h = (Ok tt, h') /\ length h' = length h /\
    deref h' node = mkNode (Some u) (n_Parent (deref h node)) (Some left) (Some right) /\
    deref h' left = set_Parent (Some node) (deref h left) /\ deref h' right = set_Parent (Some node) (deref h right) /\
    (forall a, a <> node -> a <> left -> a <> right -> deref h' a = deref h a).
Proof.
  intros En El Er Bn Bl Br Nl Nr Hl Hr D. unfold build_step. rewrite En, El. unfold hset, hbind, hget, hlift. cbn [fst snd].
  destruct Er as [[E ->]|[E Er]].
  - rewrite (proj2 (Nat.eqb_eq _ _) E). upd. cbn [set_LeftChild set_Parent set_RightChild set_Hash n_LeftChild n_RightChild n_Hash n_Parent].
    upd. cbn [set_LeftChild set_Parent set_RightChild set_Hash n_LeftChild n_RightChild n_Hash n_Parent]. unfold hash_array. upd.
    cbn [set_LeftChild set_Parent set_RightChild set_Hash n_LeftChild n_RightChild n_Hash n_Parent]. rewrite Hl. cbn [rbind]. unfold ToArray.
    assert (hr = hl) as -> by congruence. unfold bin_dbl_sha256. rewrite D.
    eexists. split; [reflexivity|]. upd. split; [reflexivity|]. cbn [set_LeftChild set_Parent set_RightChild set_Hash n_LeftChild n_RightChild n_Hash n_Parent].
    split; [reflexivity|]. split; [reflexivity|]. split; [reflexivity|]. intros a A1 A2 A3. upd. reflexivity.
  - rewrite (proj2 (Nat.eqb_neq _ _) E). rewrite Er. destruct (Nat.eq_dec left right) as [->|Nlr].
    + upd. cbn [set_LeftChild set_Parent set_RightChild set_Hash n_LeftChild n_RightChild n_Hash n_Parent]. unfold hash_array. upd.
      cbn [set_LeftChild set_Parent set_RightChild set_Hash n_LeftChild n_RightChild n_Hash n_Parent]. rewrite Hl. cbn [rbind]. unfold ToArray.
      assert (hr = hl) as -> by congruence. unfold bin_dbl_sha256. rewrite D.
      eexists. split; [reflexivity|]. upd. split; [reflexivity|]. cbn [set_LeftChild set_Parent set_RightChild set_Hash n_LeftChild n_RightChild n_Hash n_Parent].
      split; [reflexivity|]. split; [reflexivity|]. split; [reflexivity|]. intros a A1 A2 A3. upd. reflexivity.
    + upd. cbn [set_LeftChild set_Parent set_RightChild set_Hash n_LeftChild n_RightChild n_Hash n_Parent]. unfold hash_array. upd.
      cbn [set_LeftChild set_Parent set_RightChild set_Hash n_LeftChild n_RightChild n_Hash n_Parent]. rewrite Hl, Hr. cbn [rbind]. unfold ToArray.
      unfold bin_dbl_sha256. rewrite D.
      eexists. split; [reflexivity|]. upd. split; [reflexivity|]. cbn [set_LeftChild set_Parent set_RightChild set_Hash n_LeftChild n_RightChild n_Hash n_Parent].
      split; [reflexivity|]. split; [reflexivity|]. split; [reflexivity|]. intros a A1 A2 A3. upd. reflexivity.
Qed.

(** ** the whole loop *)
Definition ri (n i : nat) : nat := if i * 2 + 1 =? n then i * 2 else i * 2 + 1.
Definition u0 : uint := mkUInt CUInt256 [] 0%Z.
Lemma div2_le i n : i < Nat.div2 (S n) -> i * 2 < n.
Proof. intros L. pose proof (Nat.div2_odd (S n)). destruct (Nat.odd (S n)); cbn [Nat.b2n] in *; lia. Qed.
Lemma ri_lt i n : i < Nat.div2 (S n) -> ri n i < n.
Proof. intros L. apply div2_le in L. unfold ri. destruct (Nat.eqb_spec (i * 2 + 1) n); lia. Qed.
Lemma nth_inj (l : list addr) i j : NoDup l -> i < length l -> j < length l -> nth i l 0 = nth j l 0 -> i = j.
Proof. intros N. exact (proj1 (NoDup_nth l 0) N i j). Qed.
Lemma ri_div2 n i k : k < n -> (k = i * 2 \/ k = ri n i) -> Nat.div2 k = i.
Proof.
  intros L [-> | ->]; unfold ri; [|destruct (Nat.eqb_spec (i * 2 + 1) n)]; try (replace (i * 2) with (2 * i) by lia; apply Nat.div2_double).
  replace (i * 2 + 1) with (S (2 * i)) by lia. apply Nat.div2_succ_double.
Qed.
Lemma div2_ri n k : k < n -> k = Nat.div2 k * 2 \/ k = ri n (Nat.div2 k).
Proof.
  intros L. pose proof (Nat.div2_odd k) as E. unfold ri. destruct (Nat.odd k); cbn [Nat.b2n] in E; [right|left; lia].
  destruct (Nat.eqb_spec (Nat.div2 k * 2 + 1) n); lia.
Qed.
Lemma div2_up_lt k n : k < n -> Nat.div2 k < Nat.div2 (S n).
Proof. intros L. pose proof (Nat.div2_odd (S n)). pose proof (Nat.div2_odd k). destruct (Nat.odd (S n)), (Nat.odd k); cbn [Nat.b2n] in *; lia. Qed.
Lemma build_loop H (leaves : list addr) (hs : list uint) b np : hash_ok H -> NoDup leaves -> Forall (fun a => a < b) leaves -> np = Nat.div2 (S (length leaves)) ->
  forall m i h, i + m = np -> b + np <= length h ->
  (forall k, k < length leaves -> n_Hash (deref h (nth k leaves 0)) = Some (nth k hs u0)) ->
  exists h', hfor (seq i m) (build_step H leaves (seq b np)) h = (Ok tt, h') /\ length h' = length h /\
    (forall a, ~ In a leaves -> (a < b + i \/ b + np <= a) -> deref h' a = deref h a) /\
    (forall k, k < length leaves -> deref h' (nth k leaves 0) = if Nat.div2 k <? i then deref h (nth k leaves 0) else set_Parent (Some (b + Nat.div2 k)) (deref h (nth k leaves 0))) /\
    (forall j, i <= j < np -> exists u, digest H (nth (j * 2) hs u0) (nth (ri (length leaves) j) hs u0) u /\
       deref h' (b + j) = mkNode (Some u) (n_Parent (deref h (b + j))) (Some (nth (j * 2) leaves 0)) (Some (nth (ri (length leaves) j) leaves 0))).
Proof.
  intros O ND LB Enp. assert (Lt : forall k, k < length leaves -> nth k leaves 0 < b). { intros k K. rewrite Forall_forall in LB. apply LB, nth_In, K. }
  induction m as [|m IH]; intros i h Em Bh Hh.
  - exists h. cbn [hfor seq]. split; [reflexivity|]. split; [reflexivity|]. split; [reflexivity|]. split; [|intros j J; lia].
    intros k K. pose proof (div2_up_lt k _ K). destruct (Nat.ltb_spec (Nat.div2 k) i); [reflexivity|lia].
  - assert (Hi : i < Nat.div2 (S (length leaves))) by lia. pose proof (div2_le _ _ Hi) as L1. pose proof (ri_lt _ _ Hi) as L2.
    destruct (digest_exists H (nth (i * 2) hs u0) (nth (ri (length leaves) i) hs u0) O) as [u D].
    pose proof (Lt _ L1) as B1. pose proof (Lt _ L2) as B2.
    destruct (build_step_spec H leaves (seq b np) i h (b + i) (nth (i * 2) leaves 0) (nth (ri (length leaves) i) leaves 0) (nth (i * 2) hs u0) (nth (ri (length leaves) i) hs u0) u) as (h1 & E1 & Ln1 & Dn & Dl & Dr & Do); try lia; try (apply Hh; assumption); try exact D.
    { apply seq_nth. lia. }
    { unfold ri. destruct (Nat.eqb_spec (i * 2 + 1) (length leaves)); [left|right]; split; auto. }
    assert (Leaf : forall k, k < length leaves -> deref h1 (nth k leaves 0) = if Nat.div2 k =? i then set_Parent (Some (b + i)) (deref h (nth k leaves 0)) else deref h (nth k leaves 0)).
    { intros k K. pose proof (Lt k K). destruct (Nat.eqb_spec (Nat.div2 k) i) as [Ei|Ni].
      - destruct (div2_ri _ _ K) as [Ek|Ek]; rewrite Ei in Ek; rewrite Ek; assumption.
      - apply Do; [lia| |]; intros En; apply nth_inj in En; try assumption; try lia; subst k; apply Ni; (eapply ri_div2; [exact K|tauto]). }
    destruct (IH (S i) h1) as (h2 & E2 & Ln2 & Fr & Lf & Pa); [lia|lia| |].
    { intros k K. rewrite (Leaf k K). destruct (_ =? _); cbn [set_Parent n_Hash]; apply Hh, K. }
    exists h2. cbn [hfor seq]. unfold hbind. rewrite E1. split; [exact E2|]. split; [lia|]. split; [|split].
    + intros a Na Ra. rewrite Fr by (try assumption; lia). apply Do; [lia| |]; intros ->; apply Na, nth_In; assumption.
    + intros k K. rewrite (Lf k K), (Leaf k K). destruct (Nat.ltb_spec (Nat.div2 k) (S i)), (Nat.ltb_spec (Nat.div2 k) i), (Nat.eqb_spec (Nat.div2 k) i) as [Ek|]; try lia; try reflexivity. rewrite Ek. reflexivity.
    + intros j J. destruct (Nat.eq_dec j i) as [->|Nj].
      * exists u. split; [exact D|]. rewrite Fr; [exact Dn| |lia]. intros I. rewrite Forall_forall in LB. apply LB in I. lia.
      * destruct (Pa j) as (u' & D' & E'); [lia|]. exists u'. split; [exact D'|]. rewrite E'. f_equal. f_equal. apply Do; lia.
Qed.

(** ** the recursion *)
Lemma pair_up_index H : forall n (hs us : list uint), length hs <= n -> length us = Nat.div2 (S (length hs)) ->
  (forall j, j < length us -> digest H (nth (j * 2) hs u0) (nth (ri (length hs) j) hs u0) (nth j us u0)) -> pair_up H hs us.
Proof.
  induction n as [|n IH]; intros hs us Ln Lu D.
  - destruct hs; [|cbn in Ln; lia]. destruct us; [constructor|discriminate].
  - destruct hs as [|a [|b hs]].
    + destruct us; [constructor|discriminate].
    + destruct us as [|u [|]]; try discriminate. constructor. exact (D 0 ltac:(cbn; lia)).
    + destruct us as [|u us]; [discriminate|]. cbn [length Nat.div2] in Lu. constructor; [exact (D 0 ltac:(cbn; lia))|].
      apply IH; [cbn in Ln; lia|cbn [length] in *; destruct hs; cbn [length Nat.div2] in *; lia|].
      intros j J. specialize (D (S j) ltac:(cbn [length]; lia)). cbn [nth] in D. replace (S j * 2) with (S (S (j * 2))) in D by lia. cbn [nth] in D.
      assert (R : ri (length (a :: b :: hs)) (S j) = S (S (ri (length hs) j))). { unfold ri. cbn [length]. destruct (Nat.eqb_spec (S j * 2 + 1) (S (S (length hs)))), (Nat.eqb_spec (j * 2 + 1) (length hs)); lia. }
      rewrite R in D. exact D.
Qed.
Lemma nth_error_seq b n i a : nth_error (seq b n) i = Some a <-> i < n /\ a = b + i.
Proof.
  split.
  - intros E. assert (L : i < n). { rewrite <- (seq_length n b). apply nth_error_Some. congruence. } split; [exact L|].
    apply nth_error_nth with (d := 0) in E. rewrite seq_nth in E by exact L. lia.
  - intros [L ->]. rewrite (nth_error_nth' _ 0) by (rewrite seq_length; exact L). rewrite seq_nth by exact L. reflexivity.
Qed.
Lemma div2_smaller n : 2 <= n -> 1 <= Nat.div2 (S n) < n.
Proof. intros L. pose proof (Nat.div2_odd (S n)). destruct (Nat.odd (S n)); cbn [Nat.b2n] in *; lia. Qed.
Lemma div2_Z n : Z.to_nat ((Z.of_nat n + 1) / 2) = Nat.div2 (S n).
Proof. rewrite Nat.div2_div. replace (Z.of_nat n + 1)%Z with (Z.of_nat (S n)) by lia. change 2%Z with (Z.of_nat 2). rewrite <- Nat2Z.inj_div, Nat2Z.id. reflexivity. Qed.
(** what a row needs from the heap survives changes to the parents' Parent field *)
Lemma above_frame H h h' low up : above H h low up ->
  (forall a, In a low -> n_Parent (deref h' a) = n_Parent (deref h a)) ->
  (forall a, In a low \/ In a up -> n_Hash (deref h' a) = n_Hash (deref h a)) ->
  (forall a, In a up -> n_LeftChild (deref h' a) = n_LeftChild (deref h a) /\ n_RightChild (deref h' a) = n_RightChild (deref h a)) ->
  above H h' low up.
Proof.
  intros [L A] Fp Fh Fc. split; [exact L|]. intros i a E. destruct (A i a E) as (l & r & hl & hr & u & El & Er & Cl & Cr & Pl & Pr & Hl & Hr & Hu & D).
  pose proof (nth_error_In _ _ E) as Ia. pose proof (nth_error_In _ _ El) as Il.
  assert (Ir : In r low) by (destruct Er as [Er|[_ ->]]; [exact (nth_error_In _ _ Er)|exact Il]).
  exists l, r, hl, hr, u. destruct (Fc a Ia) as [-> ->]. rewrite !Fp, !Fh by tauto. repeat (split; [assumption|]). assumption.
Qed.
Lemma NoDup_app' {A} (l m : list A) : NoDup l -> NoDup m -> (forall a, In a l -> ~ In a m) -> NoDup (l ++ m).
Proof.
  intros L M D. induction L as [|x l N L IH]; [exact M|]. cbn. constructor; [|apply IH; intros a I; apply D; right; exact I].
  rewrite in_app_iff. intros [I|I]; [exact (N I)|exact (D x (or_introl eq_refl) I)].
Qed.
Lemma build_spec H : hash_ok H -> forall fuel (leaves : list addr) (hs : list uint) h, leaves <> [] -> length leaves <= fuel -> (zlen leaves < 2 ^ 53 - 1)%Z ->
  NoDup leaves -> Forall (fun a => a < length h) leaves -> length hs = length leaves ->
  (forall k, k < length leaves -> n_Hash (deref h (nth k leaves 0)) = Some (nth k hs u0)) ->
  (forall k, k < length leaves -> n_Parent (deref h (nth k leaves 0)) = None) ->
  exists root h' rows r, build fuel H leaves h = Some (Ok root, h') /\ rows_above H h' leaves rows root /\
    NoDup (concat rows) /\ Forall (fun a => length h <= a < length h') (concat rows) /\ length h <= length h' /\
    (forall a, a < length h -> n_Hash (deref h' a) = n_Hash (deref h a) /\ n_LeftChild (deref h' a) = n_LeftChild (deref h a) /\ n_RightChild (deref h' a) = n_RightChild (deref h a)) /\
    (forall a, a < length h -> ~ In a leaves -> deref h' a = deref h a) /\
    n_Hash (deref h' root) = Some r /\ merkle_root H hs r.
Proof.
  intros O. induction fuel as [|fuel IH]; intros leaves hs h Ne Fu Bd ND LB Lh Hh Hp; [destruct leaves; [congruence|cbn in Fu; lia]|].
  destruct leaves as [|x [|y rest]]; [congruence| |].
  - exists x, h, [], (nth 0 hs u0). cbn [build]. specialize (Hh 0 ltac:(cbn; lia)). specialize (Hp 0 ltac:(cbn; lia)). cbn [nth] in Hh, Hp.
    destruct hs as [|u [|]]; try discriminate. split; [reflexivity|]. split; [constructor; exact Hp|]. split; [constructor|]. split; [constructor|]. split; [lia|]. split; [auto|]. split; [auto|]. split; [exact Hh|constructor].
  - set (leaves := x :: y :: rest) in *. assert (L2 : 2 <= length leaves) by (cbn [leaves length]; lia).
    set (np := Nat.div2 (S (length leaves))). pose proof (div2_smaller _ L2) as Bnp. fold np in Bnp.
    set (b := length h). set (h0 := h ++ repeat (new_node None) np).
    assert (Hd : forall a, a < b -> deref h0 a = deref h a) by (intros a A; apply deref_app, A).
    assert (Lt : forall k, k < length leaves -> nth k leaves 0 < b). { intros k K. rewrite Forall_forall in LB. apply LB, nth_In, K. }
    destruct (build_loop H leaves hs b np O ND LB eq_refl np 0 h0) as (h1 & E1 & Ln1 & Fr1 & Lf1 & Pa1); [lia|unfold h0; rewrite app_length, repeat_length; fold b; lia| |].
    { intros k K. rewrite Hd by (apply Lt, K). apply Hh, K. }
    assert (Ln0 : length h0 = b + np) by (unfold h0; rewrite app_length, repeat_length; reflexivity).
    assert (Pnode : forall j, j < np -> exists u, digest H (nth (j * 2) hs u0) (nth (ri (length leaves) j) hs u0) u /\
       deref h1 (b + j) = mkNode (Some u) None (Some (nth (j * 2) leaves 0)) (Some (nth (ri (length leaves) j) leaves 0))).
    { intros j J. destruct (Pa1 j ltac:(lia)) as (u & D & E). exists u. split; [exact D|]. rewrite E. f_equal. unfold h0, b. rewrite deref_new by exact J. reflexivity. }
    set (us := map (fun a => match n_Hash (deref h1 a) with Some u => u | None => u0 end) (seq b np)).
    assert (Lus : length us = np) by (unfold us; rewrite map_length, seq_length; reflexivity).
    assert (Us : forall j, j < np -> n_Hash (deref h1 (b + j)) = Some (nth j us u0) /\ digest H (nth (j * 2) hs u0) (nth (ri (length leaves) j) hs u0) (nth j us u0)).
    { intros j J. destruct (Pnode j J) as (u & D & E). assert (Eu : nth j us u0 = u).
      { unfold us. rewrite (nth_indep _ u0 ((fun a => match n_Hash (deref h1 a) with Some u => u | None => u0 end) 0)) by (rewrite map_length, seq_length; exact J).
        rewrite (map_nth (fun a => match n_Hash (deref h1 a) with Some u => u | None => u0 end)). rewrite seq_nth by exact J. rewrite E. reflexivity. }
      rewrite Eu, E. split; [reflexivity|exact D]. }
    destruct (IH (seq b np) us h1) as (root & h2 & rows & r & E2 & Ra & NDr & Rr & Ln2 & Fr2 & Fr2' & Hr & Mr).
    { intros E. apply (f_equal (@length addr)) in E. rewrite seq_length in E. cbn in E. lia. }
    { rewrite seq_length. lia. } { unfold zlen in *. rewrite seq_length. lia. } { apply seq_NoDup. }
    { apply Forall_forall. intros a A. apply in_seq in A. lia. } { rewrite seq_length. exact Lus. }
    { intros k K. rewrite seq_length in K. rewrite seq_nth by exact K. apply (Us k K). }
    { intros k K. rewrite seq_length in K. rewrite seq_nth by exact K. destruct (Pnode k K) as (u & _ & E). rewrite E. reflexivity. }
    assert (Old : forall a, a < b -> deref h2 a = deref h1 a). { intros a A. apply Fr2'; [lia|]. intros I. apply in_seq in I. lia. }
    assert (Ab1 : above H h1 leaves (seq b np)).
    { split; [rewrite seq_length; reflexivity|]. intros i a E. apply nth_error_seq in E as [Li ->]. pose proof (div2_le i (length leaves) Li) as I1. pose proof (ri_lt i (length leaves) Li) as I2.
      destruct (Pnode i Li) as (u & D & E). exists (nth (i * 2) leaves 0), (nth (ri (length leaves) i) leaves 0), (nth (i * 2) hs u0), (nth (ri (length leaves) i) hs u0), u.
      rewrite E. cbn [n_LeftChild n_RightChild n_Hash]. split; [replace (2 * i) with (i * 2) by lia; apply nth_error_nth', I1|].
      split. { unfold ri in *. destruct (Nat.eqb_spec (i * 2 + 1) (length leaves)) as [E'|N']; [right|left].
        - split; [apply nth_error_None; lia|]. reflexivity.
        - replace (2 * i + 1) with (i * 2 + 1) by lia. apply nth_error_nth', I2. }
      split; [reflexivity|]. split; [reflexivity|]. rewrite (Lf1 _ I1), (Lf1 _ I2). cbn [Nat.ltb Nat.leb]. rewrite (ri_div2 (length leaves) i (i * 2)), (ri_div2 (length leaves) i (ri (length leaves) i)) by tauto. cbn [set_Parent n_Parent n_Hash].
      split; [reflexivity|]. split; [reflexivity|]. rewrite !Hd by (apply Lt; assumption). rewrite !Hh by assumption. repeat (split; [reflexivity|]). exact D. }
    exists root, h2, (seq b np :: rows), r.
    split. { cbn [build]. fold leaves. unfold zlen at 1. rewrite int_div_2 by (unfold zlen in *; lia). rewrite div2_Z. fold np. unfold halloc, hbind, hret. rewrite repeat_length. fold b. fold h0. rewrite E1. exact E2. }
    split. { apply ra_row; [exact L2| |exact Ra]. apply (above_frame H h1); [exact Ab1| | |].
      - intros a A. rewrite Forall_forall in LB. rewrite Old by (apply LB, A). reflexivity.
      - intros a [A|A]; [rewrite Forall_forall in LB; rewrite Old by (apply LB, A); reflexivity|]. apply in_seq in A. apply Fr2. lia.
      - intros a A. apply in_seq in A. apply Fr2. lia. }
    split. { cbn [concat]. apply NoDup_app'; [apply seq_NoDup|exact NDr|]. intros a A I. apply in_seq in A. rewrite Forall_forall in Rr. apply Rr in I. lia. }
    split. { cbn [concat]. apply Forall_app. split; [apply Forall_forall; intros a A; apply in_seq in A; lia|]. eapply Forall_impl; [|exact Rr]. intros a A. cbn beta in A. lia. }
    split; [lia|]. split; [|split; [|split; [exact Hr|]]].
    + intros a A. rewrite (Old a A). destruct (in_dec Nat.eq_dec a leaves) as [I|I].
      * apply (@In_nth addr leaves a 0) in I as (k & K & <-). rewrite (Lf1 k K). cbn [Nat.ltb Nat.leb set_Parent n_Hash n_LeftChild n_RightChild]. rewrite Hd by exact A. auto.
      * rewrite Fr1 by (try assumption; lia). rewrite Hd by exact A. auto.
    + intros a A N. rewrite (Old a A), Fr1 by (try assumption; lia). apply Hd, A.
    + apply (mr_up H hs us r); [lia| |exact Mr]. apply (pair_up_index H (length hs)); [lia|rewrite Lus, Lh; reflexivity|]. intros j J. rewrite Lh. apply Us. lia.
Qed.

(** ** depth *)
Lemma NoDup_tail {A} (l m : list A) : NoDup (l ++ m) -> NoDup m.
Proof. induction l as [|x l IH]; intros N; [exact N|]. apply IH. inversion N; assumption. Qed.
Lemma rows_nonempty H h low rows root : rows_above H h low rows root -> low <> [] /\ Forall (fun r => r <> []) rows.
Proof.
  induction 1 as [a _|low up rest root L A R [IH1 IH2]]; [split; [discriminate|constructor]|]. split; [destruct low; [cbn in L; lia|discriminate]|]. constructor; assumption.
Qed.
Lemma rows_length_concat {A} (rows : list (list A)) : Forall (fun r => r <> []) rows -> length rows <= length (concat rows).
Proof. induction 1 as [|r rows N F IH]; [cbn; lia|]. cbn. rewrite app_length. destruct r; [congruence|]. cbn. lia. Qed.
Lemma bounded_nodup n l : NoDup l -> Forall (fun a => a < n) l -> length l <= n.
Proof.
  intros N F. rewrite <- (seq_length n 0). apply NoDup_incl_length; [exact N|]. intros a A. rewrite Forall_forall in F. apply in_seq. apply F in A. lia.
Qed.
Lemma left_path H h low rows root : rows_above H h low rows root -> forall first rest f d, low = first :: rest -> length rows <= f ->
  left_depth f h root d = left_depth (f - length rows) h first (d + zlen rows).
Proof.
  induction 1 as [a _|low up rws root L A R IH]; intros first rest f d E F.
  - assert (first = a) as -> by congruence. cbn [length]. rewrite Nat.sub_0_r. change (zlen (@nil (list addr))) with 0%Z. rewrite Z.add_0_r. reflexivity.
  - destruct up as [|u up]; [exfalso; apply (proj1 (rows_nonempty _ _ _ _ _ R)); reflexivity|]. cbn [length] in F.
    rewrite (IH u up f d eq_refl) by lia. destruct (proj2 A 0 u eq_refl) as (l & r & hl & hr & v & El & _ & Cl & _). rewrite E in El. cbn in El. assert (first = l) as -> by congruence.
    replace (f - length rws) with (S (f - S (length rws))) by lia. cbn [left_depth length]. rewrite Cl. unfold zlen. cbn [length].
    replace (d + Z.of_nat (length rws) + 1)%Z with (d + Z.of_nat (S (length rws)))%Z by lia. reflexivity.
Qed.
Lemma nth_Forall2 {A B} (P : A -> B -> Prop) l m : Forall2 P l m -> forall i a, nth_error l i = Some a -> exists b, nth_error m i = Some b /\ P a b.
Proof. induction 1 as [|x y l m X F IH]; intros [|i] a E; cbn in *; try discriminate; [assert (a = x) as -> by congruence; eauto|eauto]. Qed.
Lemma tree_depth H h hs leaves rows root : tree_of H h hs leaves rows root -> left_depth (length h) h root 1 = Some (1 + zlen rows)%Z.
Proof.
  intros (F & R & N & B). destruct (rows_nonempty _ _ _ _ _ R) as [Nl Nr]. destruct leaves as [|x leaves]; [congruence|].
  assert (Len : length rows <= length h). { apply Nat.le_trans with (length (concat rows)); [apply rows_length_concat, Nr|]. apply bounded_nodup; [exact (NoDup_tail _ _ N)|]. apply Forall_app in B. apply B. }
  rewrite (left_path H h _ _ _ R x leaves (length h) 1 eq_refl Len). inversion F as [|? u ? hs' [_ [Lx _]]]; subst. destruct (length h - length rows); cbn [left_depth]; rewrite Lx; reflexivity.
Qed.
Lemma new_tree H hs h0 : hash_ok H -> hs <> [] -> (zlen hs < 2 ^ 53 - 1)%Z ->
  exists t h rows r, new_MerkleTree H hs h0 = Some (Ok t, h) /\ tree_of H h hs (seq (length h0) (length hs)) rows (t_Root t) /\ t_Depth t = (1 + zlen rows)%Z /\
    n_Hash (deref h (t_Root t)) = Some r /\ merkle_root H hs r /\ (forall a, a < length h0 -> deref h a = deref h0 a).
Proof.
  intros O Ne Bd. set (b := length h0). set (hl := h0 ++ map (fun u => new_node (Some u)) hs). set (leaves := seq b (length hs)).
  assert (Lf : forall k, k < length hs -> deref hl (b + k) = new_node (Some (nth k hs u0))).
  { intros k K. unfold deref, hl. rewrite app_nth2 by (fold b; lia). fold b. replace (b + k - b) with k by lia.
    rewrite (nth_indep _ _ ((fun u => new_node (Some u)) u0)) by (rewrite map_length; exact K). apply (map_nth (fun u => new_node (Some u))). }
  assert (Ll : length hl = b + length hs) by (unfold hl; rewrite app_length, map_length; reflexivity).
  destruct (build_spec H O (length hs) leaves hs hl) as (root & h & rows & r & E & R & N & B & Ln & Fr & Fr' & Hr & Mr).
  { intros E. apply (f_equal (@length addr)) in E. unfold leaves in E. rewrite seq_length in E. destruct hs; [congruence|discriminate]. }
  { unfold leaves. rewrite seq_length. lia. } { unfold leaves, zlen in *. rewrite seq_length. exact Bd. } { apply seq_NoDup. }
  { apply Forall_forall. intros a A. apply in_seq in A. lia. } { unfold leaves. rewrite seq_length. reflexivity. }
  { intros k K. unfold leaves in *. rewrite seq_length in K. rewrite seq_nth, Lf by exact K. reflexivity. }
  { intros k K. unfold leaves in *. rewrite seq_length in K. rewrite seq_nth, Lf by exact K. reflexivity. }
  assert (T : tree_of H h hs leaves rows root).
  { split; [|split; [exact R|split]].
    - assert (G : forall n l, length l = n -> forall s, (forall k, k < n -> n_Hash (deref h (s + k)) = Some (nth k l u0) /\ n_LeftChild (deref h (s + k)) = None /\ n_RightChild (deref h (s + k)) = None) ->
        Forall2 (fun a u => n_Hash (deref h a) = Some u /\ n_LeftChild (deref h a) = None /\ n_RightChild (deref h a) = None) (seq s n) l).
      { induction n as [|n IHn]; intros [|u l] L s P; try discriminate; [constructor|]. cbn [seq]. constructor.
        - specialize (P 0 ltac:(lia)). rewrite Nat.add_0_r in P. exact P.
        - apply IHn; [cbn in L; lia|]. intros k K. specialize (P (S k) ltac:(lia)). replace (S s + k) with (s + S k) by lia. exact P. }
      apply G; [reflexivity|]. intros k K. destruct (Fr (b + k)) as (-> & -> & ->); [lia|]. rewrite Lf by exact K. auto.
    - apply NoDup_app'; [apply seq_NoDup|exact N|]. intros a A I. apply in_seq in A. rewrite Forall_forall in B. apply B in I. lia.
    - apply Forall_app. split; [apply Forall_forall; intros a A; apply in_seq in A; lia|]. eapply Forall_impl; [|exact B]. cbn beta. lia. }
  exists (mkTree root (1 + zlen rows)), h, rows, r. unfold new_MerkleTree. fold b. fold hl. fold leaves. rewrite E. rewrite (tree_depth _ _ _ _ _ _ T). cbn [t_Root t_Depth].
  split; [reflexivity|]. split; [exact T|]. split; [reflexivity|]. split; [exact Hr|]. split; [exact Mr|].
  intros a A. rewrite Fr' by (try lia; intros I; apply in_seq in I; lia). unfold hl. apply deref_app. exact A.
Qed.
(** the number of rows *)
Lemma rows_count H h low rows root : rows_above H h low rows root -> (length low <= 2 ^ length rows) /\ (rows = [] /\ length low = 1 \/ rows <> [] /\ 2 ^ (length rows - 1) < length low).
Proof.
  induction 1 as [a _|low up rest root L [A _] R [IH1 IH2]]; [cbn; split; [lia|left; auto]|].
  pose proof (Nat.div2_odd (S (length low))) as D. rewrite <- A in D. cbn [length]. rewrite Nat.pow_succ_r'. split; [destruct (Nat.odd _); cbn [Nat.b2n] in D; lia|]. right. split; [discriminate|].
  replace (S (length rest) - 1) with (length rest) by lia. destruct IH2 as [[-> E]|[Ne E]].
  - cbn. destruct (Nat.odd _); cbn [Nat.b2n] in D; lia.
  - destruct rest as [|x rest]; [congruence|]. cbn [length] in *. rewrite Nat.pow_succ_r'. replace (S (length rest) - 1) with (length rest) in E by lia. destruct (Nat.odd _); cbn [Nat.b2n] in D; lia.
Qed.
