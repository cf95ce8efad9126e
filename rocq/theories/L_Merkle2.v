(** * L_Merkle2: reading and trimming the tree; what the root binds *)
From Coq Require Import ZArith Lia List Arith.
From Verif Require Import M_Py M_Hash M_UInt M_Helper M_ECCurve M_Merkle L_Bytes L_FloatDiv S_IO S_IO2 S_UInt S_Merkle L_UInt L_Merkle.
Import ListNotations.
Local Open Scope nat_scope.

(** ** the leaves below a node, in order, repetitions included *)
Inductive subtree (h : heap) : nat -> addr -> list uint -> Prop :=
| st_leaf a u : n_LeftChild (deref h a) = None -> n_Hash (deref h a) = Some u -> subtree h 0 a [u]
| st_node d a l r L R : n_LeftChild (deref h a) = Some l -> n_RightChild (deref h a) = Some r ->
    subtree h d l L -> subtree h d r R -> subtree h (S d) a (L ++ R).
Lemma dfs_spec h d a L : subtree h d a L -> forall fuel s, d <= fuel -> dfs fuel h a s = Some (Ok (fold_left set_add L s)).
Proof.
  induction 1 as [a u El Eh|d a l r L R El Er Sl IHl Sr IHr]; intros fuel s F.
  - destruct fuel; cbn [dfs]; rewrite El, Eh; reflexivity.
  - destruct fuel as [|fuel]; [lia|]. cbn [dfs]. rewrite El, IHl by lia. rewrite Er, IHr by lia. rewrite fold_left_app. reflexivity.
Qed.
Lemma choose_lists {A B} (Q : nat -> A -> B -> Prop) (d : B) (l : list A) : (forall i a, nth_error l i = Some a -> exists b, Q i a b) ->
  exists m, length m = length l /\ forall i a, nth_error l i = Some a -> Q i a (nth i m d).
Proof.
  revert Q. induction l as [|x l IH]; intros Q P; [exists []; split; [reflexivity|]; intros [|i] a E; discriminate|].
  destruct (P 0 x eq_refl) as [b Hb]. destruct (IH (fun i => Q (S i))) as (m & Lm & Pm); [intros i a E; apply (P (S i)), E|].
  exists (b :: m). split; [cbn; congruence|]. intros [|i] a E; cbn in *; [assert (a = x) as -> by congruence; exact Hb|apply Pm, E].
Qed.
Lemma in_concat_nth {A} (f : list (list A)) u : In u (concat f) <-> exists i, In u (nth i f []).
Proof.
  rewrite in_concat. split.
  - intros (x & I & U). apply (In_nth _ _ []) in I as (i & _ & <-). eauto.
  - intros [i U]. destruct (Nat.lt_ge_cases i (length f)) as [L|L]; [exists (nth i f []); split; [apply nth_In, L|exact U]|rewrite nth_overflow in U by exact L; destruct U].
Qed.
Lemma rows_see H h low rows root : rows_above H h low rows root -> forall d f, length f = length low ->
  (forall i a, nth_error low i = Some a -> subtree h d a (nth i f [])) ->
  exists L, subtree h (d + length rows) root L /\ forall u, In u L <-> In u (concat f).
Proof.
  induction 1 as [a _|low up rest root L [Lu A] R IH]; intros d f Lf P.
  - destruct f as [|x [|]]; try discriminate. exists x. rewrite Nat.add_0_r. split; [exact (P 0 a eq_refl)|]. cbn. rewrite app_nil_r. tauto.
  - destruct (choose_lists (fun i a x => subtree h (S d) a x /\ forall u, In u x <-> In u (nth (2 * i) f []) \/ In u (nth (2 * i + 1) f [])) [] up) as (g & Lg & Pg).
    { intros i a E. destruct (A i a E) as (l & r & hl & hr & v & El & Er & Cl & Cr & _). destruct Er as [Er|[Er ->]].
      - exists (nth (2 * i) f [] ++ nth (2 * i + 1) f []). split; [|intros u; apply in_app_iff]. eapply st_node; [exact Cl|exact Cr|apply P, El|apply P, Er].
      - exists (nth (2 * i) f [] ++ nth (2 * i) f []). split; [eapply st_node; [exact Cl|exact Cr|apply P, El|apply P, El]|].
        intros u. rewrite in_app_iff. apply nth_error_None in Er. rewrite (@nth_overflow _ f (2 * i + 1) []) by lia. cbn [In]. tauto. }
    destruct (IH (S d) g Lg) as (M & Sm & Im); [intros i a E; apply Pg, E|]. exists M. split.
    + cbn [length]. replace (d + S (length rest)) with (S d + length rest) by lia. exact Sm.
    + intros u. rewrite Im, !in_concat_nth. split.
      * intros [i U]. destruct (nth_error up i) as [a|] eqn:E.
        -- apply (proj2 (Pg i a E)) in U as [U|U]; eauto.
        -- apply nth_error_None in E. rewrite nth_overflow in U by lia. destruct U.
      * intros [i U]. assert (Li : i < length low). { destruct (Nat.lt_ge_cases i (length low)) as [X|X]; [exact X|]. rewrite nth_overflow in U by lia. destruct U. }
        pose proof (Nat.div2_odd i) as Di. pose proof (Nat.div2_odd (S (length low))) as Ds. rewrite <- Lu in Ds.
        assert (Lt : Nat.div2 i < length up). { destruct (Nat.odd i), (Nat.odd (S (length low))); cbn [Nat.b2n] in *; lia. }
        destruct (nth_error up (Nat.div2 i)) as [a|] eqn:E; [|apply nth_error_None in E; lia].
        exists (Nat.div2 i). apply (proj2 (Pg _ a E)). destruct (Nat.odd i); cbn [Nat.b2n] in Di; [right|left]; [replace (2 * Nat.div2 i + 1) with i by lia|replace (2 * Nat.div2 i) with i by lia]; exact U.
Qed.
Lemma Forall2_len {A B} (P : A -> B -> Prop) l m : Forall2 P l m -> length l = length m.
Proof. induction 1; cbn; congruence. Qed.
Lemma tree_sees H h hs leaves rows root : tree_of H h hs leaves rows root -> exists L, subtree h (length rows) root L /\ forall u, In u L <-> In u hs.
Proof.
  intros (F & R & N & B). destruct (rows_see H h leaves rows root R 0 (map (fun u => [u]) hs)) as (L & SL & IL).
  - rewrite map_length. symmetry. exact (Forall2_len _ _ _ F).
  - intros i a E. destruct (nth_Forall2 _ _ _ F i a E) as (u & Eu & Hh & Hl & _).
    assert (nth i (map (fun u => [u]) hs) [] = [u]) as ->. { apply nth_error_nth. rewrite nth_error_map, Eu. reflexivity. }
    apply st_leaf; assumption.
  - exists L. split; [exact SL|]. intros u. rewrite IL, in_concat. split.
    + intros (x & I & U). apply in_map_iff in I as (v & <- & I). destruct U as [->|[]]. exact I.
    + intros I. exists [u]. split; [apply in_map_iff; eauto|left; reflexivity].
Qed.
Lemma set_add_spec s u : Forall is_UInt256 s -> is_UInt256 u -> NoDup s ->
  NoDup (set_add s u) /\ Forall is_UInt256 (set_add s u) /\ forall v, In v (set_add s u) <-> In v s \/ v = u.
Proof.
  intros Fs Hu N. unfold set_add. destruct (existsb _ s) eqn:E.
  - split; [exact N|]. split; [exact Fs|]. apply existsb_exists in E as (v & Iv & Ev). apply andb_prop in Ev as [_ Ev].
    rewrite Forall_forall in Fs. pose proof (Fs v Iv) as Hv. assert (v = u) as ->.
    { unfold uint_eq in Ev. destruct (list_eq_dec Byte.byte_eq_dec (u_data v) (u_data u)) as [Ed|]; [|discriminate].
      destruct v, u. unfold is_UInt256 in *. cbn in *. destruct Hv as (-> & _ & ->), Hu as (-> & _ & ->). subst. reflexivity. }
    intros w. intuition congruence.
  - assert (Nu : ~ In u s).
    { intros I. assert (existsb (fun v => ((uint_hash v =? uint_hash u)%Z && uint_eq v (Some u))%bool) s = true) as C.
      { apply existsb_exists. exists u. split; [exact I|]. rewrite Z.eqb_refl. unfold uint_eq. destruct (list_eq_dec _ _ _); [reflexivity|congruence]. }
      congruence. }
    split; [apply NoDup_app'; [exact N|repeat constructor; intros []|intros a A [->|[]]; exact (Nu A)]|].
    split; [apply Forall_app; auto|]. intros v. rewrite in_app_iff. cbn. intuition.
Qed.
Lemma set_fold L : Forall is_UInt256 L -> forall s, Forall is_UInt256 s -> NoDup s ->
  NoDup (fold_left set_add L s) /\ forall v, In v (fold_left set_add L s) <-> In v s \/ In v L.
Proof.
  induction 1 as [|u L Hu F IH]; intros s Fs N; [cbn; split; [exact N|tauto]|].
  destruct (set_add_spec s u Fs Hu N) as (N' & F' & I'). destruct (IH _ F' N') as [N'' I'']. cbn [fold_left]. split; [exact N''|].
  intros v. rewrite I'', I'. cbn [In]. intuition.
Qed.
Lemma rows_le_heap H h hs leaves rows root : tree_of H h hs leaves rows root -> length rows <= length h.
Proof.
  intros (F & R & N & B). destruct (rows_nonempty _ _ _ _ _ R) as [Nl Nr]. apply Nat.le_trans with (length (concat rows)); [apply rows_length_concat, Nr|].
  apply bounded_nodup; [exact (NoDup_tail _ _ N)|]. apply Forall_app in B. apply B.
Qed.

(** ** trimming *)
Definition look (flags : bytes) (i : Z) : res bool :=
  do a <- flag_at flags i; if negb (b2z a =? 0)%Z then Ok false else do b <- flag_at flags (i + 1); Ok (b2z b =? 0)%Z.
Lemma clear_update a h x : deref (update a (set_RightChild None) (update a (set_LeftChild None) h)) x = if Nat.eqb x a then (if Nat.ltb a (length h) then clear (deref h a) else deref h a) else deref h x.
Proof.
  destruct (Nat.eqb_spec x a) as [->|N]; [|rewrite !deref_other by congruence; reflexivity].
  destruct (Nat.ltb_spec a (length h)) as [L|L]; [rewrite !deref_same by (rewrite ?update_length; exact L); reflexivity|].
  unfold deref. rewrite !nth_overflow by (rewrite ?update_length; exact L). reflexivity.
Qed.
(** below [a] hangs a complete tree; [lev] gives the height of its inner nodes *)
Inductive tall (h : heap) (lev : addr -> nat) : nat -> addr -> Prop :=
| tl_leaf a : n_LeftChild (deref h a) = None -> n_RightChild (deref h a) = None -> tall h lev 0 a
| tl_node d a l r : lev a = Datatypes.S d -> a < length h -> n_LeftChild (deref h a) = Some l -> n_RightChild (deref h a) = Some r ->
    tall h lev d l -> tall h lev d r -> tall h lev (Datatypes.S d) a.
Lemma tall_has h lev d a : tall h lev d a -> d <> 0 -> n_LeftChild (deref h a) <> None /\ n_RightChild (deref h a) <> None.
Proof. intros T N. inversion T; subst; [congruence|]. split; congruence. Qed.
Lemma pow_step (i : Z) d : (i * 2 * 2 ^ Z.of_nat (S d) = i * 2 ^ Z.of_nat (S (S d)))%Z.
Proof. rewrite (Nat2Z.inj_succ (S d)), Z.pow_succ_r by lia. ring. Qed.
Lemma trim_2 node index flags h : trim_node 2 node index flags h =
  match n_LeftChild (deref h node) with None => Some (Ok tt, h) | Some l =>
    match look flags (index * 2) with
    | Raise e => Some (Raise e, h)
    | Ok true => Some (Ok tt, update node (set_RightChild None) (update node (set_LeftChild None) h))
    | Ok false => Some (Ok tt, h)
    end end.
Proof. reflexivity. Qed.
Lemma trim_3 d node index flags h : trim_node (S (S (S d))) node index flags h =
  match n_LeftChild (deref h node) with None => Some (Ok tt, h) | Some l =>
            match trim_node (S (S d)) l (index * 2) flags h with
            | Some (Ok _, h1) =>
                match n_RightChild (deref h1 node) with
                | None => Some (Raise AttributeError, h1)
                | Some r =>
                    match trim_node (S (S d)) r (index * 2) flags h1 with
                    | Some (Ok _, h2) =>
                        match n_LeftChild (deref h2 node) with
                        | None => Some (Raise AttributeError, h2)
                        | Some l2 =>
                            match n_LeftChild (deref h2 l2), n_RightChild (deref h2 node) with
                            | Some _, _ => Some (Ok tt, h2)
                            | None, None => Some (Raise AttributeError, h2)
                            | None, Some r2 =>
                                match n_RightChild (deref h2 r2) with
                                | None => Some (Ok tt, update node (set_RightChild None) (update node (set_LeftChild None) h2))
                                | Some _ => Some (Ok tt, h2)
                                end
                            end
                        end
                    | x => x
                    end
                end
            | x => x
            end end.
Proof. reflexivity. Qed.
Lemma trim_keep h lev d a : tall h lev d a -> forall i flags, d <> 0 -> look flags (i * 2 ^ Z.of_nat d) = Ok false ->
  trim_node (Datatypes.S d) a i flags h = Some (Ok tt, h).
Proof.
  induction 1 as [a El Er|d a l r Sa La El Er Tl IHl Tr IHr]; intros i flags N E; [congruence|].
  destruct d as [|d].
  - rewrite trim_2, El. change (i * 2 ^ Z.of_nat 1)%Z with (i * 2)%Z in E. rewrite E. reflexivity.
  - rewrite trim_3, El.
    rewrite <- pow_step in E. rewrite (IHl (i * 2)%Z flags) by (try congruence; exact E). rewrite Er. rewrite (IHr (i * 2)%Z flags) by (try congruence; exact E). rewrite El.
    destruct (tall_has _ _ _ _ Tl ltac:(congruence)) as [Hl _]. destruct (n_LeftChild (deref h l)); [reflexivity|congruence].
Qed.
Lemma trim_raise h lev d a : tall h lev d a -> forall i flags e, d <> 0 -> look flags (i * 2 ^ Z.of_nat d) = Raise e ->
  trim_node (Datatypes.S d) a i flags h = Some (Raise e, h).
Proof.
  induction 1 as [a El Er|d a l r Sa La El Er Tl IHl Tr IHr]; intros i flags e N E; [congruence|].
  destruct d as [|d].
  - rewrite trim_2, El. change (i * 2 ^ Z.of_nat 1)%Z with (i * 2)%Z in E. rewrite E. reflexivity.
  - rewrite trim_3, El.
    rewrite <- pow_step in E. rewrite (IHl (i * 2)%Z flags e) by (try congruence; exact E). reflexivity.
Qed.
(** [h'] is [h] with some nodes cleared, and with every cleared node all below it *)
Definition cut (h h' : heap) : Prop :=
  length h' = length h /\ (forall x, deref h' x = deref h x \/ deref h' x = clear (deref h x)) /\
  (forall x y, n_LeftChild (deref h x) <> None -> n_LeftChild (deref h x) = Some y \/ n_RightChild (deref h x) = Some y -> n_LeftChild (deref h' x) = None -> n_LeftChild (deref h' y) = None).
Lemma cut_right h h' lev d a : cut h h' -> tall h lev d a -> n_LeftChild (deref h' a) = None -> n_RightChild (deref h' a) = None.
Proof.
  intros (_ & C & _) T E. destruct (C a) as [X|X]; rewrite X in *; [|reflexivity]. inversion T; subst; [assumption|congruence].
Qed.
Lemma trim_clear h lev d a : tall h lev d a -> forall i flags h', look flags (i * 2 ^ Z.of_nat d) = Ok true -> cut h h' ->
  exists h'', trim_node (Datatypes.S d) a i flags h' = Some (Ok tt, h'') /\ cut h h'' /\ n_LeftChild (deref h'' a) = None /\
    (forall x, deref h'' x = deref h' x \/ lev x <= d /\ deref h'' x = clear (deref h x)).
Proof.
  induction 1 as [a El Er|d a l r Sa La El Er Tl IHl Tr IHr]; intros i flags h' E C.
  - exists h'. cbn [trim_node Nat.eqb]. split; [reflexivity|]. split; [exact C|]. split; [|auto]. destruct C as (_ & C & _). destruct (C a) as [X|X]; rewrite X; [exact El|reflexivity].
  - assert (CutA : forall h2, cut h h2 -> n_LeftChild (deref h2 l) = None -> n_LeftChild (deref h2 r) = None ->
      let h3 := update a (set_RightChild None) (update a (set_LeftChild None) h2) in
      cut h h3 /\ n_LeftChild (deref h3 a) = None /\ (forall x, deref h3 x = deref h2 x \/ lev x <= Datatypes.S d /\ deref h3 x = clear (deref h x))).
    { intros h2 C2 E1 E2 h3. pose proof (proj1 C2) as L2. assert (D3 : forall x, deref h3 x = if Nat.eqb x a then clear (deref h2 a) else deref h2 x).
      { intros x. unfold h3. rewrite clear_update, L2. replace (Nat.ltb a (length h)) with true by (symmetry; apply Nat.ltb_lt, La). reflexivity. }
      assert (Dc : clear (deref h2 a) = clear (deref h a)). { destruct (proj1 (proj2 C2) a) as [->| ->]; reflexivity. }
      split; [split; [unfold h3; rewrite !update_length; exact L2|split]|split].
      - intros x. rewrite D3. destruct (Nat.eqb_spec x a) as [->|Nx]; [right; exact Dc|apply C2].
      - intros x y Nx0 Cxy. rewrite !D3. destruct (Nat.eqb_spec y a) as [->|Ny]; [intros _; reflexivity|]. destruct (Nat.eqb_spec x a) as [->|Nx]; [|apply C2; assumption].
        intros _. destruct Cxy as [Cx|Cx]; [rewrite El in Cx|rewrite Er in Cx]; [assert (y = l) as -> by congruence|assert (y = r) as -> by congruence]; assumption.
      - rewrite D3, Nat.eqb_refl. reflexivity.
      - intros x. rewrite D3. destruct (Nat.eqb_spec x a) as [->|Nx]; [right; split; [lia|exact Dc]|left; reflexivity]. }
    destruct (proj1 (proj2 C) a) as [X|X].
    2:{ assert (Xn : n_LeftChild (deref h' a) = None) by (rewrite X; reflexivity). exists h'. split; [destruct d; [rewrite trim_2|rewrite trim_3]; rewrite Xn; reflexivity|]. split; [exact C|]. split; [exact Xn|auto]. }
    destruct d as [|d].
    + rewrite trim_2, X, El. change (i * 2 ^ Z.of_nat 1)%Z with (i * 2)%Z in E. rewrite E. eexists. split; [reflexivity|].
      inversion Tl as [? El0 _|]; subst. inversion Tr as [? Er0 _|]; subst.
      apply CutA; [exact C| |]; [destruct (proj1 (proj2 C) l) as [Y|Y]|destruct (proj1 (proj2 C) r) as [Y|Y]]; rewrite Y; try assumption; reflexivity.
    + rewrite trim_3, X, El. rewrite <- pow_step in E. destruct (IHl (i * 2)%Z flags h' E C) as (h1 & E1 & C1 & N1 & F1). rewrite E1.
      assert (A1 : deref h1 a = deref h a). { destruct (F1 a) as [Y|[Y _]]; [congruence|lia]. }
      rewrite A1, Er. destruct (IHr (i * 2)%Z flags h1 E C1) as (h2 & E2 & C2 & N2 & F2). rewrite E2.
      assert (A2 : deref h2 a = deref h a). { destruct (F2 a) as [Y|[Y _]]; [congruence|lia]. }
      rewrite A2, El, Er. assert (N1' : n_LeftChild (deref h2 l) = None). { destruct (F2 l) as [Y|[_ Y]]; rewrite Y; [exact N1|reflexivity]. }
      rewrite N1'. rewrite (cut_right _ _ _ _ _ C2 Tr N2). eexists. split; [reflexivity|]. destruct (CutA h2 C2 N1' N2) as (C3 & N3 & F3). split; [exact C3|]. split; [exact N3|].
      intros x. destruct (F3 x) as [Y|Y]; [|right; exact Y]. destruct (F2 x) as [Z|[LZ Z]]; [|right; split; [lia|congruence]]. destruct (F1 x) as [V|[LV V]]; [left; congruence|right; split; [lia|congruence]].
Qed.
(** the height of a node in the rows *)
Fixpoint lev (rows : list (list addr)) (x : addr) : nat :=
  match rows with [] => 1 | r :: rest => if in_dec Nat.eq_dec x r then 1 else S (lev rest x) end.
Lemma lev_in rows x : lev rows x <= length rows -> In x (concat rows).
Proof. induction rows as [|r rows IH]; cbn [lev length concat]; [lia|]. rewrite in_app_iff. destruct (in_dec Nat.eq_dec x r); [auto|]. intros L. right. apply IH. lia. Qed.
Lemma rows_tall H h : forall low rows root, rows_above H h low rows root -> forall (v : addr -> nat) d, NoDup (concat rows) -> Forall (fun a => a < length h) (concat rows) ->
  (forall x, In x (concat rows) -> v x = d + lev rows x) -> (forall a, In a low -> tall h v d a) -> tall h v (d + length rows) root.
Proof.
  induction 1 as [a _|low up rest root L [Lu A] R IH]; intros v d N B V T; [rewrite Nat.add_0_r; apply T; left; reflexivity|].
  cbn [length]. replace (d + S (length rest)) with (S d + length rest) by lia. cbn [concat] in *. apply Forall_app in B as [B1 B2]. apply IH; [exact (NoDup_tail _ _ N)|exact B2| |].
  - intros x I. rewrite V by (apply in_app_iff; auto). cbn [lev]. destruct (in_dec Nat.eq_dec x up) as [J|J]; [|lia]. exfalso.
    clear - N I J. induction up as [|y up IHu]; [destruct J|]. cbn in N. inversion N as [|? ? Ny N']; subst. destruct J as [->|J]; [apply Ny, in_app_iff; auto|exact (IHu N' J)].
  - intros a I. apply In_nth_error in I as Ie. destruct Ie as [i E]. destruct (A i a E) as (l & r & hl & hr & u & El & Er & Cl & Cr & _).
    assert (Ir : In r low) by (destruct Er as [Er|[_ ->]]; [exact (nth_error_In _ _ Er)|exact (nth_error_In _ _ El)]).
    rewrite Forall_forall in B1. eapply tl_node; [|exact (B1 a I)|exact Cl|exact Cr|apply T, (nth_error_In _ _ El)|apply T, Ir].
    rewrite V by (apply in_app_iff; auto). cbn [lev]. destruct (in_dec Nat.eq_dec a up) as [J|J]; [lia|contradiction].
Qed.
Lemma tree_tall H h hs leaves rows root : tree_of H h hs leaves rows root -> tall h (lev rows) (length rows) root.
Proof.
  intros (F & R & N & B). apply Forall_app in B as [_ B]. apply (rows_tall H h leaves rows root R (lev rows) 0 (NoDup_tail _ _ N) B); [auto|].
  intros a I. apply In_nth_error in I as [i E]. destruct (nth_Forall2 _ _ _ F i a E) as (u & _ & _ & El & Er). apply tl_leaf; assumption.
Qed.
Lemma above_child H h low up : above H h low up -> forall x, In x low -> exists a, In a up /\ n_LeftChild (deref h a) <> None /\ (n_LeftChild (deref h a) = Some x \/ n_RightChild (deref h a) = Some x).
Proof.
  intros [Lu A] x I. apply In_nth_error in I as [i E]. assert (Li : i < length low) by (apply nth_error_Some; congruence).
  pose proof (Nat.div2_odd i) as Di. pose proof (Nat.div2_odd (S (length low))) as Ds. rewrite <- Lu in Ds.
  assert (Lt : Nat.div2 i < length up). { destruct (Nat.odd i), (Nat.odd (S (length low))); cbn [Nat.b2n] in *; lia. }
  destruct (nth_error up (Nat.div2 i)) as [a|] eqn:Ea; [|apply nth_error_None in Ea; lia]. exists a. split; [exact (nth_error_In _ _ Ea)|].
  destruct (A _ a Ea) as (l & r & hl & hr & u & El & Er & Cl & Cr & _). split; [congruence|]. destruct (Nat.odd i); cbn [Nat.b2n] in Di.
  - right. replace (2 * Nat.div2 i + 1) with i in Er by lia. destruct Er as [Er|[Er _]]; congruence.
  - left. replace (2 * Nat.div2 i) with i in El by lia. congruence.
Qed.
Lemma rows_cleared H h h' : cut h h' -> forall low rows root, rows_above H h low rows root -> n_LeftChild (deref h' root) = None ->
  forall x, In x (low ++ concat rows) -> n_LeftChild (deref h' x) = None.
Proof.
  intros C low rows root R E. induction R as [a _|low up rest root L A R IH]; intros x I.
  - cbn in I. destruct I as [->|[]]. exact E.
  - specialize (IH E). cbn [concat] in I. apply in_app_iff in I as [I|I]; [|apply IH, I]. destruct (above_child _ _ _ _ A x I) as (a & Ia & Na & Ca).
    apply (proj2 (proj2 C) a x Na Ca). apply IH, in_app_iff. auto.
Qed.
Lemma cut_refl h : cut h h.
Proof. split; [reflexivity|]. split; [auto|]. intros x y N _ E. contradiction. Qed.
Lemma without_unique h h1 h2 l : without_children h h1 l -> without_children h h2 l -> h1 = h2.
Proof.
  intros [L1 E1] [L2 E2]. apply (nth_ext _ _ (new_node None) (new_node None)); [congruence|]. intros n _. change (deref h1 n = deref h2 n).
  destruct (in_dec Nat.eq_dec n l) as [I|I]; [rewrite (proj1 (E1 n) I), (proj1 (E2 n) I)|rewrite (proj2 (E1 n) I), (proj2 (E2 n) I)]; reflexivity.
Qed.
Lemma tree_clear H h hs leaves rows root i flags : tree_of H h hs leaves rows root -> look flags (i * 2 ^ Z.of_nat (length rows)) = Ok true ->
  exists h', trim_node (S (length rows)) root i flags h = Some (Ok tt, h') /\ without_children h h' (concat rows).
Proof.
  intros T E. destruct (trim_clear h (lev rows) (length rows) root (tree_tall _ _ _ _ _ _ T) i flags h E (cut_refl h)) as (h' & E' & C & N & F).
  exists h'. split; [exact E'|]. split; [apply C|]. intros x. split; intros I.
  - destruct (F x) as [Y|[_ Y]]; [|exact Y]. pose proof (rows_cleared H h h' C _ _ _ (proj1 (proj2 T)) N x (proj2 (in_app_iff _ _ _) (or_intror I))) as Nx.
    destruct (proj1 (proj2 C) x) as [Z|Z]; [|exact Z]. exfalso. rewrite Y in Nx. 
    assert (G : forall low rws root, rows_above H h low rws root -> In x (concat rws) -> n_LeftChild (deref h x) <> None).
    { induction 1 as [|low up rest rt L [_ A] R IH]; intros J; [destruct J|]. cbn [concat] in J. apply in_app_iff in J as [J|J]; [|apply IH, J].
      apply In_nth_error in J as [k K]. destruct (A k x K) as (l & r & hl & hr & u & _ & _ & Cl & _). congruence. }
    exact (G _ _ _ (proj1 (proj2 T)) I Nx).
  - destruct (F x) as [Y|[L _]]; [exact Y|]. destruct (I (lev_in _ _ L)).
Qed.

(** ** what the root binds *)
Lemma pair_up_fun H l a : pair_up H l a -> forall b, pair_up H l b -> a = b.
Proof.
  induction 1 as [|x u D|x y l u l' D P IH]; intros b Q; inversion Q; subst; try reflexivity; [f_equal; eapply digest_fun; eassumption|].
  f_equal; [eapply digest_fun; eassumption|apply IH; assumption].
Qed.
Lemma merkle_root_fun H l a : merkle_root H l a -> forall b, merkle_root H l b -> a = b.
Proof.
  induction 1 as [u|l l' r L P M IH]; intros b Q; inversion Q; subst; try reflexivity; try (cbn in *; lia).
  apply IH. match goal with X : pair_up H l ?m |- _ => rewrite (pair_up_fun H l l' P m X) end. assumption.
Qed.
Lemma pair_up_length H l l' : pair_up H l l' -> length l' = Nat.div2 (S (length l)).
Proof. induction 1 as [|x u D|x y l u l' D P IH]; [reflexivity|reflexivity|]. cbn [length]. rewrite IH. reflexivity. Qed.
Lemma digest_wf H a b u : digest H a b u -> is_UInt256 u.
Proof. unfold digest. intros E. apply init_spec in E as (d & [[E _]|[E L]] & ->); [discriminate|]. split; [reflexivity|]. split; [exact L|reflexivity]. Qed.
Lemma pair_up_wf H l l' : pair_up H l l' -> Forall is_UInt256 l'.
Proof. induction 1; constructor; try (eapply digest_wf; eassumption); try assumption; constructor. Qed.
Lemma wf_ext a b : is_UInt256 a -> is_UInt256 b -> u_data a = u_data b -> a = b.
Proof. destruct a, b. unfold is_UInt256. cbn. intros (-> & _ & ->) (-> & _ & ->) ->. reflexivity. Qed.
Lemma app_inj_len {A} (a b c d : list A) : a ++ b = c ++ d -> length a = length c -> a = c /\ b = d.
Proof. revert c. induction a as [|x a IH]; intros [|y c] E L; cbn in *; try discriminate; [auto|]. assert (x = y) as -> by congruence. destruct (IH c) as [-> ->]; [congruence|lia|auto]. Qed.
Lemma digest_inj H a b c d u : is_UInt256 a -> is_UInt256 b -> is_UInt256 c -> is_UInt256 d -> digest H a b u -> digest H c d u -> (a = c /\ b = d) \/ collision H.
Proof.
  intros Wa Wb Wc Wd D1 D2. pose proof Wa as (_ & La & _). pose proof Wb as (_ & Lb & _). pose proof Wc as (_ & Lc & _). pose proof Wd as (_ & Ld & _).
  unfold digest in *. apply init_spec in D1 as (x & [[E _]|[E1 _]] & X1); [discriminate|]. apply init_spec in D2 as (y & [[E _]|[E2 _]] & X2); [discriminate|].
  assert (x = y) by congruence. subst y. assert (E : sha256 H (sha256 H (u_data a ++ u_data b)) = sha256 H (sha256 H (u_data c ++ u_data d))) by (destruct E1, E2; congruence).
  destruct (list_eq_dec Byte.byte_eq_dec (u_data a ++ u_data b) (u_data c ++ u_data d)) as [Q|Q].
  - left. apply app_inj_len in Q as [Q1 Q2]; [|congruence]. split; apply wf_ext; assumption.
  - right. exists (u_data a ++ u_data b), (u_data c ++ u_data d). rewrite !app_length, La, Lb, Lc, Ld. auto.
Qed.
Lemma pair_up_inj H l l' : pair_up H l l' -> forall m, pair_up H m l' -> length l = length m -> Forall is_UInt256 l -> Forall is_UInt256 m -> l = m \/ collision H.
Proof.
  induction 1 as [|x u D|x y l u l' D P IH]; intros m Q Len Wl Wm; inversion Q; subst; cbn in Len; try lia; [auto| |].
  - inversion Wl; inversion Wm; subst. destruct (digest_inj H x x a a u) as [[-> _]|C]; auto.
  - inversion Wl as [|? ? Wx Wl']; inversion Wl'; inversion Wm as [|? ? Wa Wm']; inversion Wm'; subst. destruct (digest_inj H x y a b u) as [[-> ->]|C]; auto.
    match goal with X : pair_up H ?k l' |- _ \/ _ => destruct (IH k X) as [->|C]; [lia|assumption|assumption|left; reflexivity|right; exact C] end.
Qed.
Lemma root_binds H l r : merkle_root H l r -> forall m, merkle_root H m r -> length l = length m -> Forall is_UInt256 l -> Forall is_UInt256 m -> l = m \/ collision H.
Proof.
  induction 1 as [u|l l' r L P M IH]; intros m Q Len Wl Wm; inversion Q; subst; try (cbn in *; lia); [auto|].
  match goal with X : pair_up H m ?k, Y : merkle_root H ?k r |- _ => destruct (IH k Y) as [E|C]; auto;
    [rewrite (pair_up_length _ _ _ P), (pair_up_length _ _ _ X), Len; reflexivity|exact (pair_up_wf _ _ _ P)|exact (pair_up_wf _ _ _ X)|];
    apply (pair_up_inj H l l' P m); try assumption; rewrite E; assumption end.
Qed.
Lemma pair_up_repeat H l a l' : Nat.even (length l) = true -> pair_up H (l ++ [a]) l' -> pair_up H (l ++ [a; a]) l'.
Proof.
  revert l'. induction l as [l IH] using (well_founded_induction (Wf_nat.well_founded_ltof _ (@length uint))). unfold Wf_nat.ltof in IH.
  intros l' Ev P. destruct l as [|x [|y l]]; [| discriminate|].
  - cbn in *. inversion P; subst. apply pu_pair; [assumption|constructor].
  - cbn [app] in *. inversion P; subst. apply pu_pair; [assumption|]. apply IH; [cbn; lia|exact Ev|assumption].
Qed.
Lemma root_repeat H l a r : Nat.even (length l) = true -> l <> [] -> merkle_root H (l ++ [a]) r -> merkle_root H (l ++ [a; a]) r.
Proof.
  intros Ev N M. inversion M as [u E|l0 l' r0 L P M' E]; subst.
  - destruct l as [|x [|y l]]; [congruence|discriminate|discriminate].
  - apply (mr_up H _ l'); [rewrite app_length; cbn; lia|apply pair_up_repeat; assumption|exact M'].
Qed.
Lemma pair_up_exists H : hash_ok H -> forall l, exists l', pair_up H l l'.
Proof.
  intros O l. induction l as [l IH] using (well_founded_induction (Wf_nat.well_founded_ltof _ (@length uint))). unfold Wf_nat.ltof in IH.
  destruct l as [|x [|y l]]; [exists []; constructor|destruct (digest_exists H x x O) as [u D]; exists [u]; constructor; exact D|].
  destruct (IH l) as [l' P]; [cbn; lia|]. destruct (digest_exists H x y O) as [u D]. exists (u :: l'). constructor; assumption.
Qed.
