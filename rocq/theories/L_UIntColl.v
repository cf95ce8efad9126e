(** * L_UIntColl: lemmas for C116 and C117 *)
From Coq Require Import Lia Permutation Sorting.Sorted ZifyBool ZifyNat.
From Verif Require Import M_Py M_UInt M_Writer M_Reader M_UIntHeap M_UIntColl S_IO S_IO2 S_UInt S_UIntColl L_Bytes L_IO L_IO2 L_UInt.

(** ** sorted lists *)
Lemma ss_perm_eq {A} (R : A -> A -> Prop) l1 : forall l2, (forall x y, In x l1 -> In y l1 -> R x y -> R y x -> x = y) ->
  StronglySorted R l1 -> StronglySorted R l2 -> Permutation l1 l2 -> l1 = l2.
Proof.
  induction l1 as [|x l1 IH]; intros l2 Anti S1 S2 P; [apply Permutation_nil in P; congruence|].
  destruct l2 as [|y l2]; [apply Permutation_sym, Permutation_nil in P; discriminate|].
  inversion S1 as [|? ? S1' F1]; subst. inversion S2 as [|? ? S2' F2]; subst.
  assert (E : x = y).
  { assert (Hx : In x (y :: l2)) by (eapply Permutation_in; [exact P|left; reflexivity]).
    assert (Hy : In y (x :: l1)) by (eapply Permutation_in; [apply Permutation_sym, P|left; reflexivity]).
    assert (Hy' := Hy). destruct Hx as [Hx|Hx]; [congruence|]. destruct Hy as [Hy|Hy]; [exact Hy|]. rewrite Forall_forall in F1, F2. apply Anti; [left; reflexivity|exact Hy'|auto|auto]. }
  subst y. f_equal. apply IH; [|exact S1'|exact S2'|exact (Permutation_cons_inv P)]. intros a b Ha Hb. apply Anti; right; assumption.
Qed.
Lemma pairs_ss {A} (R : A -> A -> Prop) d l : (forall a b, (a < b < length l)%nat -> R (nth a l d) (nth b l d)) -> StronglySorted R l.
Proof.
  induction l as [|x l IH]; intros H; constructor.
  - apply IH. intros a b L. apply (H (S a) (S b)). cbn [length]. lia.
  - apply Forall_forall. intros y Hy. apply (In_nth _ _ d) in Hy as (i & L & <-). apply (H O (S i)). cbn [length]. lia.
Qed.
Lemma ss_pairs {A} (R : A -> A -> Prop) d l : StronglySorted R l -> forall a b, (a < b < length l)%nat -> R (nth a l d) (nth b l d).
Proof.
  induction 1 as [|x l S IH F]; intros a b L; [cbn [length] in L; lia|]. cbn [length] in L. destruct b as [|b]; [lia|]. destruct a as [|a].
  - cbn [nth]. rewrite Forall_forall in F. apply F, nth_In. lia.
  - cbn [nth]. apply IH. lia.
Qed.
Lemma ss_weaken {A} (R Q : A -> A -> Prop) l : (forall x y, In x l -> In y l -> R x y -> Q x y) -> StronglySorted R l -> StronglySorted Q l.
Proof.
  intros H S. induction S as [|x l S IH F]; constructor.
  - apply IH. intros a b Ha Hb. apply H; right; assumption.
  - rewrite Forall_forall in *. intros y Hy. apply H; [left; reflexivity|right; exact Hy|auto].
Qed.
Lemma ss_map {A B} (f : A -> B) (R : B -> B -> Prop) l : StronglySorted (fun x y => R (f x) (f y)) l -> StronglySorted R (map f l).
Proof.
  induction 1 as [|x l S IH F]; cbn [map]; constructor; [exact IH|]. rewrite Forall_forall in *. intros y Hy. apply in_map_iff in Hy as (z & <- & Hz). auto.
Qed.
Lemma ss_filter {A} (R : A -> A -> Prop) g l : StronglySorted R l -> StronglySorted R (filter g l).
Proof.
  induction 1 as [|x l S IH F]; cbn [filter]; [constructor|]. destruct (g x); [|exact IH]. constructor; [exact IH|].
  rewrite Forall_forall in *. intros y Hy. apply filter_In in Hy. apply F, Hy.
Qed.
Lemma perm_filter {A} (g : A -> bool) l1 l2 : Permutation l1 l2 -> Permutation (filter g l1) (filter g l2).
Proof.
  induction 1 as [|x l1 l2 P IH|x y l|l1 l2 l3 P1 IH1 P2 IH2]; cbn [filter]; [constructor|destruct (g x); auto| |etransitivity; eassumption].
  destruct (g x), (g y); try reflexivity. constructor.
Qed.
Lemma filter_map {A B} (f : A -> B) g l : filter g (map f l) = map f (filter (fun x => g (f x)) l).
Proof. induction l as [|x l IH]; [reflexivity|]. cbn [map filter]. destruct (g (f x)); cbn [map]; rewrite IH; reflexivity. Qed.
Lemma seq_ss n : forall k, StronglySorted lt (seq k n).
Proof.
  induction n as [|n IH]; intros k; cbn [seq]; constructor; [apply IH|]. rewrite Forall_forall. intros y Hy. apply in_seq in Hy. lia.
Qed.
Lemma pick_map {A} (d : A) l p : (forall i, In i p -> (i < length l)%nat) -> pick l p = map (fun i => nth i l d) p.
Proof.
  unfold pick. induction p as [|i p IH]; intros H; [reflexivity|]. cbn [flat_map map]. rewrite IH by (intros j Hj; apply H; right; exact Hj).
  rewrite (nth_error_nth' l d) by (apply H; left; reflexivity). reflexivity.
Qed.
Lemma map_seq_nth {A} (d : A) l : map (fun i => nth i l d) (seq 0 (length l)) = l.
Proof.
  induction l as [|x l IH]; [reflexivity|]. cbn [length seq map nth]. rewrite <- seq_shift, map_map. f_equal. exact IH.
Qed.

(** ** the contract *)
Definition before (keys : list Z) (x y : nat) : Prop := nth x keys 0 < nth y keys 0 \/ (nth x keys 0 = nth y keys 0 /\ (x < y)%nat).
Lemma stable_order_ss keys p : stable_order keys p <-> Permutation p (seq 0 (length keys)) /\ StronglySorted (before keys) p.
Proof.
  unfold stable_order. split; intros [P H]; (split; [exact P|]).
  - apply (pairs_ss _ O). intros a b L. exact (H a b L).
  - intros a b L. exact (ss_pairs _ O p H a b L).
Qed.
Lemma run_agree {A} (lt : A -> A -> res bool) (l : list A) keys t : length l = length keys ->
  (forall i j x y, nth_error l i = Some x -> nth_error l j = Some y -> lt x y = Ok (nth i keys 0 <? nth j keys 0)) ->
  run_sorter lt l t = run_sorter (fun a b => Ok (a <? b)) keys t.
Proof.
  intros L H. induction t as [i j k IH|p]; [|reflexivity]. cbn [run_sorter].
  assert (N : forall i, match nth_error l i with Some _ => nth_error keys i = Some (nth i keys 0) | None => nth_error keys i = None end).
  { intros m. destruct (nth_error l m) eqn:E.
    - apply nth_error_nth'. rewrite <- L. apply nth_error_Some. congruence.
    - apply nth_error_None. apply nth_error_None in E. lia. }
  pose proof (N i) as Ni. pose proof (N j) as Nj. destruct (nth_error l i) as [x|] eqn:Ei; rewrite Ni; [|reflexivity].
  destruct (nth_error l j) as [y|] eqn:Ej; rewrite Nj; [|reflexivity]. rewrite (H i j x y Ei Ej). cbn [rbind]. apply IH.
Qed.
Definition u0 : uint := mkUInt CUIntBase [] 0.
Lemma sorted_positions sorts l : sorts_ints_stably sorts -> one_size l ->
  exists p, py_sorted sorts l = Ok (pick l p) /\ stable_order (map rank l) p.
Proof.
  intros C O. destruct (C (map rank l)) as (p & E & S). rewrite map_length in E. exists p. split; [|exact S].
  unfold py_sorted. rewrite (run_agree _ l (map rank l)); [rewrite E; reflexivity|symmetry; apply map_length|].
  intros i j x y Ei Ej. assert (Hx : In x l) by (eapply nth_error_In; eassumption). assert (Hy : In y l) by (eapply nth_error_In; eassumption).
  destruct (ops_spec x y (O x y Hx Hy)) as [-> _]. rewrite (nth_error_nth (map rank l) i 0 (map_nth_error rank i l Ei)), (nth_error_nth (map rank l) j 0 (map_nth_error rank j l Ej)). reflexivity.
Qed.
Lemma nth_rank l i : nth i (map rank l) 0 = rank (nth i l u0).
Proof. change 0 with (rank u0). apply map_nth. Qed.
Lemma sorted_is sorts l : sorts_ints_stably sorts -> one_size l -> exists out, py_sorted sorts l = Ok out /\ Permutation out l /\
  StronglySorted (fun a b => rank a <= rank b) out /\ (forall r, filter (fun u => rank u =? r) out = filter (fun u => rank u =? r) l).
Proof.
  intros C O. destruct (sorted_positions sorts l C O) as (p & E & S). exists (pick l p). split; [exact E|].
  apply stable_order_ss in S as [P S]. rewrite map_length in P.
  assert (I : forall i, In i p -> (i < length l)%nat) by (intros i Hi; apply (Permutation_in _ P), in_seq in Hi; lia).
  rewrite (pick_map u0 l p I). split; [|split].
  - transitivity (map (fun i => nth i l u0) (seq 0 (length l))); [apply Permutation_map, P|rewrite map_seq_nth; reflexivity].
  - apply ss_map. eapply ss_weaken; [|exact S]. intros x y _ _. unfold before. rewrite !nth_rank. lia.
  - intros r. rewrite filter_map. transitivity (map (fun i => nth i l u0) (filter (fun i => rank (nth i l u0) =? r) (seq 0 (length l)))).
    + f_equal. apply (ss_perm_eq lt); [intros; lia| |apply ss_filter, seq_ss|apply perm_filter, P].
      eapply ss_weaken; [|apply ss_filter, S]. intros x y Hx Hy. apply filter_In in Hx as [_ Hx], Hy as [_ Hy]. unfold before. rewrite !nth_rank. lia.
    + rewrite <- (filter_map (fun i => nth i l u0) (fun u => rank u =? r)), map_seq_nth. reflexivity.
Qed.
Lemma sorted_all_tied sorts l : sorts_ints_stably sorts -> one_size l -> (forall a b, In a l -> In b l -> rank a = rank b) -> py_sorted sorts l = Ok l.
Proof.
  intros C O T. destruct (sorted_is sorts l C O) as (out & E & P & _ & F). rewrite E. f_equal. destruct l as [|x r]; [apply Permutation_sym, Permutation_nil in P; congruence|].
  assert (A : forall m, (forall a, In a m -> rank a = rank x) -> filter (fun u => rank u =? rank x) m = m).
  { induction m as [|y m IH]; intros H; [reflexivity|]. cbn [filter]. rewrite (H y) by (left; reflexivity). rewrite Z.eqb_refl, IH; [reflexivity|]. intros a Ha. apply H. right. exact Ha. }
  specialize (F (rank x)). rewrite (A out), (A (x :: r)) in F; [exact F| |].
  - intros a Ha. apply T; [exact Ha|left; reflexivity].
  - intros a Ha. apply T; [apply (Permutation_in _ P), Ha|left; reflexivity].
Qed.
Lemma sorted_canonical sorts l l' : sorts_ints_stably sorts -> one_size l -> no_ties l -> Permutation l l' -> py_sorted sorts l = py_sorted sorts l'.
Proof.
  intros C O T P. assert (O' : one_size l') by (intros a b Ha Hb; apply O; apply (Permutation_in _ (Permutation_sym P)); assumption).
  destruct (sorted_is sorts l C O) as (o1 & E1 & P1 & S1 & _). destruct (sorted_is sorts l' C O') as (o2 & E2 & P2 & S2 & _). rewrite E1, E2. f_equal.
  apply (ss_perm_eq (fun a b => rank a <= rank b)); [|exact S1|exact S2|rewrite P1, P2; exact P].
  intros x y Hx Hy A B. apply T; [apply (Permutation_in _ P1), Hx|apply (Permutation_in _ P1), Hy|lia].
Qed.

(** items of different sizes *)
Definition bumped (s : nat) (c : Z) (l : list uint) : list Z := map (fun u => rank u + (if Nat.eqb (length (u_data u)) s then c else 0)) l.
Lemma run_bumped s l t : run_sorter (fun a b => uint_lt a (Some b)) l t = Raise PlainException \/
  (forall c, run_sorter (fun a b => uint_lt a (Some b)) l t = run_sorter (fun a b => Ok (a <? b)) (bumped s c l) t).
Proof.
  induction t as [i j k IH|p]; [|right; reflexivity]. cbn [run_sorter].
  destruct (nth_error l i) as [x|] eqn:Ei; [destruct (nth_error l j) as [y|] eqn:Ej|].
  - destruct (Nat.eq_dec (length (u_data x)) (length (u_data y))) as [L|L].
    + destruct (ops_spec x y L) as [-> _]. cbn [rbind]. destruct (IH (value_of x / 256 <? value_of y / 256)) as [H|H]; [left; exact H|right].
      intros c. unfold bumped. rewrite (map_nth_error _ i l Ei), (map_nth_error _ j l Ej). cbn [rbind]. rewrite L. rewrite (H c).
      f_equal. f_equal. unfold rank. destruct (Nat.eqb (length (u_data y)) s); destruct (Z.ltb_spec (value_of x / 256) (value_of y / 256));
        symmetry; [apply Z.ltb_lt|apply Z.ltb_ge|apply Z.ltb_lt|apply Z.ltb_ge]; lia.
    + left. unfold uint_lt. rewrite CompareTo_size by exact L. reflexivity.
  - right. intros c. unfold bumped. rewrite (map_nth_error _ i l Ei). rewrite (proj2 (nth_error_None (map _ l) j)); [reflexivity|]. rewrite map_length. apply nth_error_None, Ej.
  - right. intros c. unfold bumped. rewrite (proj2 (nth_error_None (map _ l) i)); [reflexivity|]. rewrite map_length. apply nth_error_None, Ei.
Qed.
Lemma ss_cannot {A} (R : A -> A -> Prop) p x y : StronglySorted R p -> In x p -> In y p -> x <> y -> ~ R x y -> ~ R y x -> False.
Proof.
  induction 1 as [|z p S IH F]; intros Hx Hy N1 N2 N3; [destruct Hx|]. rewrite Forall_forall in F. destruct Hx as [->|Hx], Hy as [->|Hy]; [congruence|apply N2; auto|apply N3; auto|auto].
Qed.
Lemma ss_order {A} (R Q : A -> A -> Prop) p x y : StronglySorted R p -> StronglySorted Q p -> In x p -> In y p -> x <> y -> ~ R x y -> ~ Q y x -> False.
Proof.
  intros S1. induction S1 as [|z p S IH F]; intros S2 Hx Hy N1 N2 N3; [destruct Hx|]. inversion S2 as [|? ? S2' F2]; subst. rewrite Forall_forall in F, F2.
  destruct Hx as [->|Hx], Hy as [->|Hy]; [congruence|apply N2; auto|apply N3; auto|auto].
Qed.
Lemma sorted_mixed sorts l a b : sorts_ints_stably sorts -> In a l -> In b l -> length (u_data a) <> length (u_data b) -> py_sorted sorts l = Raise PlainException.
Proof.
  intros C Ha Hb L. unfold py_sorted. destruct (run_bumped (length (u_data a)) l (sorts (length l))) as [H|H]; [rewrite H; reflexivity|exfalso].
  apply In_nth_error in Ha as [i Ei], Hb as [j Ej].
  set (M := 1 + Z.abs (rank a) + Z.abs (rank b)).
  assert (K : forall c p, stable_order (bumped (length (u_data a)) c l) p -> StronglySorted (before (bumped (length (u_data a)) c l)) p /\ In i p /\ In j p).
  { intros c p S. apply stable_order_ss in S as [P S]. split; [exact S|]. unfold bumped in P. rewrite map_length in P.
    split; apply (Permutation_in _ (Permutation_sym P)), in_seq; [assert (i < length l)%nat by (apply nth_error_Some; congruence)|assert (j < length l)%nat by (apply nth_error_Some; congruence)]; lia. }
  assert (Vi : forall c, nth i (bumped (length (u_data a)) c l) 0 = rank a + c) by (intros c; unfold bumped; rewrite (nth_error_nth _ i 0 (map_nth_error _ i l Ei)), Nat.eqb_refl; reflexivity).
  assert (Vj : forall c, nth j (bumped (length (u_data a)) c l) 0 = rank b) by (intros c; unfold bumped; rewrite (nth_error_nth _ j 0 (map_nth_error _ j l Ej)); destruct (Nat.eqb_spec (length (u_data b)) (length (u_data a))); lia).
  destruct (C (bumped (length (u_data a)) M l)) as (p & E & S). destruct (C (bumped (length (u_data a)) (- M) l)) as (q & E' & S').
  assert (Lb : forall c, length (bumped (length (u_data a)) c l) = length l) by (intros c; apply map_length). rewrite Lb in E, E'. rewrite <- H in E, E'.
  assert (q = p) as -> by congruence. apply K in S as (S & I & J). apply K in S' as (S' & _ & _).
  apply (ss_order _ _ p i j S S' I J); [congruence| |]; unfold before; rewrite Vi, Vj; unfold M; lia.
Qed.

(** ** min and max *)
Lemma one_size_tail x y l : one_size (x :: y :: l) -> one_size (x :: l) /\ one_size (y :: l).
Proof. intros O. split; intros a b Ha Hb; apply O; cbn [In] in *; tauto. Qed.
Lemma best_min l : forall x, one_size (x :: l) -> exists u, best (fun a b => uint_lt a (Some b)) x l = Ok u /\
  ((u = x /\ Forall (fun y => rank u <= rank y) l) \/
   (exists l1 l2, l = l1 ++ u :: l2 /\ rank u < rank x /\ Forall (fun y => rank u < rank y) l1 /\ Forall (fun y => rank u <= rank y) l2)).
Proof.
  induction l as [|y l IH]; intros x O; [exists x; split; [reflexivity|left; auto]|]. cbn [best].
  destruct (ops_spec y x (O y x ltac:(cbn; auto) ltac:(cbn; auto))) as [-> _]. cbn [rbind]. destruct (one_size_tail _ _ _ O) as [Ox Oy].
  fold (rank x) (rank y). destruct (Z.ltb_spec (rank y) (rank x)) as [Lt|Ge].
  - destruct (IH y Oy) as (u & E & [[-> F]|(l1 & l2 & -> & R & F1 & F2)]); exists u + exists y; (split; [exact E|]); right.
    + exists [], l. auto.
    + exists (y :: l1), l2. split; [reflexivity|]. split; [lia|]. split; [constructor; [exact R|exact F1]|exact F2].
  - destruct (IH x Ox) as (u & E & [[-> F]|(l1 & l2 & -> & R & F1 & F2)]).
    + exists x. split; [exact E|]. left. auto.
    + exists u. split; [exact E|]. right. exists (y :: l1), l2. split; [reflexivity|]. split; [exact R|]. split; [constructor; [lia|exact F1]|exact F2].
Qed.
Lemma best_max l : forall x, one_size (x :: l) -> exists u, best (fun a b => uint_gt a (Some b)) x l = Ok u /\
  ((u = x /\ Forall (fun y => rank y <= rank u) l) \/
   (exists l1 l2, l = l1 ++ u :: l2 /\ rank x < rank u /\ Forall (fun y => rank y < rank u) l1 /\ Forall (fun y => rank y <= rank u) l2)).
Proof.
  induction l as [|y l IH]; intros x O; [exists x; split; [reflexivity|left; auto]|]. cbn [best].
  destruct (ops_spec y x (O y x ltac:(cbn; auto) ltac:(cbn; auto))) as (_ & -> & _). cbn [rbind]. destruct (one_size_tail _ _ _ O) as [Ox Oy].
  fold (rank x) (rank y). destruct (Z.ltb_spec (rank x) (rank y)) as [Lt|Ge].
  - destruct (IH y Oy) as (u & E & [[-> F]|(l1 & l2 & -> & R & F1 & F2)]).
    + exists y. split; [exact E|]. right. exists [], l. auto.
    + exists u. split; [exact E|]. right. exists (y :: l1), l2. split; [reflexivity|]. split; [lia|]. split; [constructor; [exact R|exact F1]|exact F2].
  - destruct (IH x Ox) as (u & E & [[-> F]|(l1 & l2 & -> & R & F1 & F2)]).
    + exists x. split; [exact E|]. left. auto.
    + exists u. split; [exact E|]. right. exists (y :: l1), l2. split; [reflexivity|]. split; [exact R|]. split; [constructor; [lia|exact F1]|exact F2].
Qed.
Lemma best_mixed better l : (forall a b, length (u_data a) = length (u_data b) -> exists r, better a b = Ok r) ->
  (forall a b, length (u_data a) <> length (u_data b) -> better a b = Raise PlainException) ->
  forall x y, In y l -> length (u_data y) <> length (u_data x) -> best better x l = Raise PlainException.
Proof.
  intros Hs Hd. induction l as [|z l IH]; intros x y Hy L; [destruct Hy|]. cbn [best]. destruct (Nat.eq_dec (length (u_data z)) (length (u_data x))) as [E|N]; [|rewrite Hd by exact N; reflexivity].
  destruct (Hs z x E) as [r ->]. cbn [rbind]. destruct Hy as [->|Hy]; [congruence|]. apply (IH _ y Hy). destruct r; congruence.
Qed.

(** ** an algorithm that meets the contract *)
Fixpoint insert_tree (i : nat) (pre s : list nat) (k : list nat -> sorter) : sorter :=
  match s with
  | [] => k (pre ++ [i])
  | x :: r => Ask i x (fun b => if b then k (pre ++ i :: x :: r) else insert_tree i (pre ++ [x]) r k)
  end.
Fixpoint sort_tree (todo s : list nat) : sorter :=
  match todo with [] => Give s | i :: r => insert_tree i [] s (sort_tree r) end.
Definition insertion_sort (n : nat) : sorter := sort_tree (seq 0 n) [].
Lemma before_trans keys x y z : before keys x y -> before keys y z -> before keys x z.
Proof. unfold before. lia. Qed.
Lemma ss_app_mid {A} (R : A -> A -> Prop) l1 x l2 : (forall a b c, R a b -> R b c -> R a c) ->
  StronglySorted R (l1 ++ l2) -> Forall (fun y => R y x) l1 -> Forall (R x) l2 -> StronglySorted R (l1 ++ x :: l2).
Proof.
  intros T. induction l1 as [|y l1 IH]; cbn [app]; intros S F1 F2; [constructor; assumption|]. inversion S as [|? ? S' F]; subst. inversion F1 as [|? ? Hy F1']; subst.
  constructor; [apply IH; assumption|]. apply Forall_app in F as [Fa Fb]. apply Forall_app. split; [exact Fa|]. constructor; [exact Hy|exact Fb].
Qed.
Lemma insert_run keys i k s : forall pre, (i < length keys)%nat -> Forall (fun x => (x < i)%nat) (pre ++ s) ->
  StronglySorted (before keys) (pre ++ s) -> Forall (fun x => nth x keys 0 <= nth i keys 0) pre ->
  exists s', run_sorter (fun a b => Ok (a <? b)) keys (insert_tree i pre s k) = run_sorter (fun a b => Ok (a <? b)) keys (k s') /\
    Permutation s' (i :: pre ++ s) /\ StronglySorted (before keys) s'.
Proof.
  induction s as [|x r IH]; intros pre Li F S Hp; cbn [insert_tree].
  - rewrite app_nil_r in *. exists (pre ++ [i]). split; [reflexivity|]. split; [apply Permutation_sym, Permutation_cons_append|].
    apply ss_app_mid; [apply before_trans|rewrite app_nil_r; exact S| |constructor]. rewrite Forall_forall in *. intros y Hy. specialize (F y Hy). specialize (Hp y Hy). unfold before. lia.
  - cbn [run_sorter]. pose proof F as F'. apply Forall_app in F' as [Fp Fr]. inversion Fr as [|? ? Hx Fr']; subst.
    rewrite (nth_error_nth' keys 0 Li), (nth_error_nth' keys 0) by lia. cbn [rbind]. destruct (Z.ltb_spec (nth i keys 0) (nth x keys 0)) as [Lt|Ge].
    + exists (pre ++ i :: x :: r). split; [reflexivity|]. split; [apply Permutation_sym, Permutation_middle|].
      apply ss_app_mid; [apply before_trans|exact S| |].
      * rewrite Forall_forall in *. intros y Hy. specialize (Fp y Hy). specialize (Hp y Hy). unfold before. lia.
      * assert (B : before keys i x) by (unfold before; lia). constructor; [exact B|].
        assert (Sx : StronglySorted (before keys) (x :: r)) by (clear - S; induction pre as [|z pre IHp]; [exact S|inversion S; auto]).
        inversion Sx as [|? ? _ Fx]; subst. rewrite Forall_forall in *. intros y Hy. eapply before_trans; [exact B|auto].
    + destruct (IH (pre ++ [x]) Li) as (s' & E & P & S').
      * rewrite <- app_assoc. exact F.
      * rewrite <- app_assoc. exact S.
      * apply Forall_app. split; [exact Hp|]. constructor; [lia|constructor].
      * exists s'. split; [exact E|]. split; [|exact S']. rewrite <- app_assoc in P. exact P.
Qed.
Lemma sort_tree_run keys n : forall i s, (i + n = length keys)%nat -> Permutation s (seq 0 i) -> StronglySorted (before keys) s ->
  exists p, run_sorter (fun a b => Ok (a <? b)) keys (sort_tree (seq i n) s) = Ok p /\ Permutation p (seq 0 (length keys)) /\ StronglySorted (before keys) p.
Proof.
  induction n as [|n IH]; intros i s L P S; cbn [seq sort_tree]; [exists s; split; [reflexivity|]; split; [replace (length keys) with i by lia; exact P|exact S]|].
  destruct (insert_run keys i (sort_tree (seq (Datatypes.S i) n)) s []) as (s' & E & P' & S').
  - lia.
  - cbn [app]. rewrite Forall_forall. intros y Hy. apply (Permutation_in _ P), in_seq in Hy. lia.
  - exact S.
  - constructor.
  - rewrite E. apply IH; [lia| |exact S']. rewrite seq_S. cbn [app Nat.add] in *. rewrite P', P. apply Permutation_cons_append.
Qed.
Lemma insertion_sort_ok : sorts_ints_stably insertion_sort.
Proof.
  intros l. destruct (sort_tree_run l (length l) 0 [] (Nat.add_0_l _) (Permutation_refl _) (SSorted_nil _)) as (p & E & P & S).
  exists p. split; [exact E|]. apply stable_order_ss. split; assumption.
Qed.

(** ** dicts *)
Lemma uint_eq_view w o o' : uint_eq (view w o) (Some (view w o')) = true <-> data_of w o = data_of w o'.
Proof. unfold uint_eq. cbn [u_data view]. destruct (list_eq_dec _ _ _); split; congruence. Qed.
Lemma ustep_keeps w op k o : uinv w -> leaves_uints_alone w op -> match op with DeserializeAt i _ => i <> k | _ => True end ->
  nth_error (objs w) k = Some o -> nth_error (objs (ustep w op)) k = Some o /\ data_of (ustep w op) o = data_of w o.
Proof.
  intros U Hl Hd E. assert (Ho : In o (objs w)) by (eapply nth_error_In; eassumption). assert (Lk : (k < length (objs w))%nat) by (apply nth_error_Some; congruence).
  destruct (U o Ho) as [_ Hc].
  assert (Happ : forall x, nth_error (objs w ++ [x]) k = Some o) by (intros x; rewrite nth_error_app1 by exact Lk; exact E).
  assert (Hcell : forall b os, data_of (mkWorld (cells w ++ [b]) os) o = data_of w o).
  { intros b os. unfold data_of, cell. destruct (o_data o) as [l|]; [|reflexivity]. cbn [cells]. rewrite app_nth1 by exact Hc. reflexivity. }
  destruct op as [b|loc b|cls n a|i s]; cbn [ustep leaves_uints_alone] in *.
  - split; [exact E|apply Hcell].
  - split; [exact E|]. unfold data_of, cell. specialize (Hl o Ho). destruct (o_data o) as [l|]; [|reflexivity]. cbn [cells]. apply update_nth. congruence.
  - destruct a as [|b|loc]; cbn [alloc add_obj].
    + split; [apply Happ|apply Hcell].
    + destruct (negb _); [split; [exact E|reflexivity]|]. split; [apply Happ|apply Hcell].
    + destruct (_ <? _)%nat; [|split; [exact E|reflexivity]]. destruct (negb _); [split; [exact E|reflexivity]|]. split; [apply Happ|reflexivity].
  - destruct (nth_error (objs w) i) as [oi|] eqn:Ei; [|split; [exact E|reflexivity]].
    destruct (uint_Deserialize (view w oi) s) as [[u|e] s']; [|split; [exact E|reflexivity]]. split; [|reflexivity].
    cbn [objs]. revert i Hd Ei. clear - E. revert k E. induction (objs w) as [|x r IH]; intros k E i N Ei; [destruct i; discriminate|].
    destruct i as [|i], k as [|k]; cbn [M_UIntHeap.update nth_error] in *; try congruence. apply IH; congruence.
Qed.
Definition key_bytes (w : world) (e : entry) : option bytes := bytes_of w (e_key e).
Definition dinv (d : dworld) (m : amap) : Prop :=
  uinv (dw_world d) /\
  (forall e, In e (dw_dict d) -> exists b, key_bytes (dw_world d) e = Some b /\ e_hash e = GetHashCode b) /\
  NoDup (map (key_bytes (dw_world d)) (dw_dict d)) /\
  (forall b v, m b = Some v <-> exists e, In e (dw_dict d) /\ key_bytes (dw_world d) e = Some b /\ e_val e = v).
Lemma bytes_of_obj w k b : bytes_of w k = Some b <-> exists o, nth_error (objs w) k = Some o /\ data_of w o = b.
Proof. unfold bytes_of. destruct (nth_error (objs w) k) as [o|]; cbn [option_map]; [|split; [discriminate|intros (o & E & _); discriminate]]. split; [intros E; exists o; split; congruence|intros (o' & E & E'); congruence]. Qed.
Lemma inv_hits d m k b e : dinv d m -> In e (dw_dict d) -> bytes_of (dw_world d) k = Some b -> hits (dw_world d) k e <-> key_bytes (dw_world d) e = Some b.
Proof.
  intros (U & H & _ & _) He Hk. apply bytes_of_obj in Hk as (o & Eo & <-). unfold key_bytes. destruct (H e He) as (b' & Hb & Hh). unfold key_bytes in Hb. apply bytes_of_obj in Hb as (o' & Eo' & <-).
  split.
  - intros (p & p' & Ep & Ep' & _ & [Q|Q]); apply bytes_of_obj; exists o'; (split; [exact Eo'|]).
    + rewrite Q in Eo'. congruence.
    + apply uint_eq_view in Q. congruence.
  - intros Q. apply bytes_of_obj in Q as (o'' & Eo'' & Q). assert (o'' = o') as -> by congruence. exists o, o'. split; [exact Eo|]. split; [exact Eo'|].
    destruct (U o ltac:(eapply nth_error_In; eassumption)) as [Ho _]. split; [unfold uint_hash; cbn [u_hash view]; congruence|]. right. apply uint_eq_view. exact Q.
Qed.
Lemma inv_may_hit d m k b e : dinv d m -> In e (dw_dict d) -> bytes_of (dw_world d) k = Some b -> may_hit (dw_world d) k e <-> key_bytes (dw_world d) e = Some b.
Proof.
  intros I He Hk. unfold may_hit. rewrite (inv_hits d m k b e I He Hk). split; [|auto]. intros [Q|[Q _]]; [exact Q|]. unfold key_bytes. rewrite Q. exact Hk.
Qed.
Lemma nodup_pos {A B} (f : A -> B) l i j x y : NoDup (map f l) -> nth_error l i = Some x -> nth_error l j = Some y -> f x = f y -> i = j.
Proof.
  intros N Ei Ej E. apply (proj1 (NoDup_nth_error (map f l)) N); [rewrite map_length; apply nth_error_Some; congruence|].
  rewrite (map_nth_error f i l Ei), (map_nth_error f j l Ej), E. reflexivity.
Qed.
Lemma inv_lookup d m k b : dinv d m -> bytes_of (dw_world d) k = Some b -> forall o, lookup d k o ->
  match o with Some i => exists e, nth_error (dw_dict d) i = Some e /\ key_bytes (dw_world d) e = Some b /\ m b = Some (e_val e) | None => m b = None /\ (forall e, In e (dw_dict d) -> key_bytes (dw_world d) e <> Some b) end.
Proof.
  intros I Hk o L. pose proof I as (U & H & N & M). destruct L as [i e Ei Hm|Lk Hn].
  - exists e. split; [exact Ei|]. assert (He : In e (dw_dict d)) by (eapply nth_error_In; eassumption). apply (inv_may_hit d m k b e I He Hk) in Hm. split; [exact Hm|]. apply M. exists e. auto.
  - assert (Hn' : forall e, In e (dw_dict d) -> key_bytes (dw_world d) e <> Some b) by (intros e He Q; apply (Hn e He), (inv_hits d m k b e I He Hk), Q).
    split; [|exact Hn']. destruct (m b) as [v|] eqn:E; [|reflexivity]. apply M in E as (e & He & Q & _). destruct (Hn' e He Q).
Qed.
Lemma inv_get d m k b : dinv d m -> bytes_of (dw_world d) k = Some b -> forall r, dget d k r <-> r = m b.
Proof.
  intros I Hk r. split.
  - intros (o & L & ->). pose proof (inv_lookup d m k b I Hk o L) as Q. destruct o as [i|]; [|symmetry; apply Q]. destruct Q as (e & Ei & _ & ->). rewrite Ei. reflexivity.
  - intros ->. pose proof I as (U & H & N & M). destruct (m b) as [v|] eqn:E.
    + apply M in E as (e & He & Q & <-). apply In_nth_error in He as [i Ei]. exists (Some i). split; [|rewrite Ei; reflexivity].
      apply (look_found d k i e Ei). apply (inv_may_hit d m k b e I); [eapply nth_error_In; eassumption|exact Hk|exact Q].
    + exists None. split; [|reflexivity]. apply look_none; [apply bytes_of_obj in Hk as (o & Eo & _); apply nth_error_Some; congruence|].
      intros e He Q. apply (inv_hits d m k b e I He Hk) in Q. assert (m b = Some (e_val e)) by (apply M; exists e; auto). congruence.
Qed.
Lemma update_at {A} (l : list A) i x y : nth_error l i = Some x -> exists l1 l2, l = l1 ++ x :: l2 /\ length l1 = i /\ M_UIntHeap.update l i y = l1 ++ y :: l2 /\ remove_at i l = l1 ++ l2.
Proof.
  revert i. induction l as [|a l IH]; intros [|i] E; cbn [nth_error] in E; try discriminate.
  - injection E as ->. exists [], l. auto.
  - destruct (IH i E) as (l1 & l2 & -> & L & U & R). exists (a :: l1), l2. cbn [app length M_UIntHeap.update remove_at]. rewrite U, R, L. auto.
Qed.
Lemma dinv_step d m op d' : dinv d m -> dstep d op d' -> keys_alone d op -> dinv d' (apply_dop d op m).
Proof.
  intros I S K. pose proof I as (U & H & N & M). destruct S as [op|k v i e L Ei|k v o L Eo|k i L|k L]; cbn [apply_dop keys_alone] in *.
  - destruct K as [K1 K2]. assert (Same : forall e, In e (dw_dict d) -> key_bytes (ustep (dw_world d) op) e = key_bytes (dw_world d) e).
    { intros e He. destruct (H e He) as (b & Hb & _). rewrite Hb. unfold key_bytes in *. apply bytes_of_obj in Hb as (o & Eo & <-). apply bytes_of_obj. exists o.
      apply ustep_keeps; [exact U|exact K1| |exact Eo]. destruct op as [| | |j s]; auto. specialize (K2 e He). congruence. }
    split; [apply ustep_inv; assumption|]. cbn [dw_world dw_dict]. split; [intros e He; rewrite (Same e He); apply H, He|].
    split; [rewrite (map_ext_in _ (key_bytes (dw_world d))) by exact Same; exact N|].
    intros b v. rewrite M. split; intros (e & He & Q & V); exists e; [rewrite (Same e He)|rewrite <- (Same e He)]; auto.
  - assert (He : In e (dw_dict d)) by (eapply nth_error_In; eassumption). destruct (H e He) as (b & Hb & Hh).
    destruct (bytes_of (dw_world d) k) as [c|] eqn:Hk.
    2: { exfalso. inversion L as [i' e' Ei' Hm|]; subst. destruct Hm as [(p & p' & Ep & _)|[_ Lk]]; unfold bytes_of in Hk; [rewrite Ep in Hk; discriminate|]. apply nth_error_Some in Lk. destruct (nth_error (objs (dw_world d)) k); [discriminate|congruence]. }
    pose proof (inv_lookup d m k c I Hk _ L) as (e' & Ei' & Q & Mv). assert (e' = e) as -> by congruence. assert (c = b) as -> by congruence.
    destruct (update_at (dw_dict d) i e (mkEntry (e_hash e) (e_key e) v) Ei) as (l1 & l2 & El & Ll & Eu & _). split; [exact U|]. cbn [dw_world dw_dict]. rewrite Eu. rewrite El in N, H.
    assert (Kb : key_bytes (dw_world d) (mkEntry (e_hash e) (e_key e) v) = key_bytes (dw_world d) e) by reflexivity.
    split; [|split].
    + intros x Hx. apply in_app_or in Hx as [Hx|[<-|Hx]]; [apply H, in_or_app; auto|exists b; auto|apply H, in_or_app; right; right; exact Hx].
    + rewrite map_app in *. cbn [map] in *. rewrite Kb. exact N.
    + intros b' v'. unfold set_entry. rewrite map_app in N. cbn [map] in N. apply NoDup_remove_2 in N.
      assert (Nx : forall x, In x (l1 ++ l2) -> key_bytes (dw_world d) x <> Some b) by (intros x Hx Q'; apply N; rewrite Hb, <- Q', <- map_app; apply in_map, Hx).
      destruct (list_eq_dec Byte.byte_eq_dec b' b) as [->|Nb].
      * split; [intros E; injection E as <-; exists (mkEntry (e_hash e) (e_key e) v); split; [apply in_or_app; right; left; reflexivity|split; [exact Hb|reflexivity]]|].
        intros (x & Hx & Q' & V'). apply in_app_or in Hx as [Hx|[<-|Hx]]; [destruct (Nx x); [apply in_or_app; auto|exact Q']|cbn in V'; congruence|destruct (Nx x); [apply in_or_app; auto|exact Q']].
      * rewrite M, El. split; intros (x & Hx & Q' & V').
        -- apply in_app_or in Hx as [Hx|[<-|Hx]]; [exists x|congruence|exists x]; (split; [apply in_or_app; cbn [In]; auto|auto]).
        -- apply in_app_or in Hx as [Hx|[<-|Hx]]; [exists x|exfalso; unfold key_bytes in Q', Hb; cbn [e_key] in Q'; congruence|exists x]; (split; [apply in_or_app; cbn [In]; auto|auto]).
  - assert (Hk : bytes_of (dw_world d) k = Some (data_of (dw_world d) o)) by (apply bytes_of_obj; exists o; auto). rewrite Hk. set (b := data_of (dw_world d) o) in *.
    destruct (inv_lookup d m k b I Hk _ L) as [Mb Nb]. set (e := mkEntry _ k v).
    assert (Eb : key_bytes (dw_world d) e = Some b) by exact Hk.
    split; [exact U|]. cbn [dw_world dw_dict]. split; [|split].
    + intros x Hx. apply in_app_or in Hx as [Hx|[<-|[]]]; [apply H, Hx|]. exists b. split; [exact Eb|]. destruct (U o ltac:(eapply nth_error_In; eassumption)) as [Q _]. exact Q.
    + rewrite map_app. cbn [map]. apply (Permutation_NoDup (Permutation_cons_append _ _)). constructor; [|exact N]. rewrite Eb. intros Q. apply in_map_iff in Q as (x & Q & Hx). exact (Nb x Hx Q).
    + intros b' v'. unfold set_entry. destruct (list_eq_dec Byte.byte_eq_dec b' b) as [->|N'].
      * split; [intros E; injection E as <-; exists e; split; [apply in_or_app; right; left; reflexivity|split; [exact Eb|reflexivity]]|].
        intros (x & Hx & Q & V). apply in_app_or in Hx as [Hx|[<-|[]]]; [destruct (Nb x Hx Q)|cbn in V; congruence].
      * rewrite M. split; intros (x & Hx & Q & V); [exists x; split; [apply in_or_app; auto|auto]|]. apply in_app_or in Hx as [Hx|[<-|[]]]; [exists x; auto|congruence].
  - destruct (bytes_of (dw_world d) k) as [b|] eqn:Hk.
    2: { exfalso. inversion L as [i' e' Ei' Hm|]; subst. destruct Hm as [(p & p' & Ep & _)|[_ Lk]]; unfold bytes_of in Hk; [rewrite Ep in Hk; discriminate|]. apply nth_error_Some in Lk. destruct (nth_error (objs (dw_world d)) k); [discriminate|congruence]. }
    pose proof (inv_lookup d m k b I Hk _ L) as (e & Ei & Hb & Mv).
    destruct (update_at (dw_dict d) i e e Ei) as (l1 & l2 & El & Ll & _ & Er). split; [exact U|]. cbn [dw_world dw_dict]. rewrite Er. rewrite El in N, H. rewrite map_app in N. cbn [map] in N.
    pose proof (NoDup_remove_2 _ _ _ N) as N2. apply NoDup_remove_1 in N.
    assert (Nx : forall x, In x (l1 ++ l2) -> key_bytes (dw_world d) x <> Some b) by (intros x Hx Q'; apply N2; rewrite Hb, <- Q', <- map_app; apply in_map, Hx).
    split; [|split].
    + intros x Hx. apply H. apply in_app_or in Hx as [Hx|Hx]; apply in_or_app; cbn [In]; auto.
    + rewrite map_app. exact N.
    + intros b' v'. unfold set_entry. destruct (list_eq_dec Byte.byte_eq_dec b' b) as [->|Nb].
      * split; [discriminate|]. intros (x & Hx & Q & _). destruct (Nx x Hx Q).
      * rewrite M, El. split; intros (x & Hx & Q & V); exists x; (split; [|auto]).
        -- apply in_app_or in Hx as [Hx|[<-|Hx]]; [apply in_or_app; auto|congruence|apply in_or_app; auto].
        -- apply in_app_or in Hx as [Hx|Hx]; apply in_or_app; cbn [In]; auto.
  - destruct (bytes_of (dw_world d) k) as [b|] eqn:Hk; [|exact I]. destruct (inv_lookup d m k b I Hk _ L) as [Mb Nb].
    split; [exact U|]. split; [exact H|]. split; [exact N|]. intros b' v'. unfold set_entry. destruct (list_eq_dec Byte.byte_eq_dec b' b) as [->|N']; [|apply M].
    split; [discriminate|]. intros (x & Hx & Q & _). destruct (Nb x Hx Q).
Qed.
Lemma dinv_empty : dinv empty_dworld no_entry.
Proof.
  split; [intros o []|]. split; [intros e []|]. split; [constructor|]. intros b v. split; [discriminate|]. intros (e & [] & _).
Qed.
Lemma clean_run_inv d m l d' m' : clean_run d m l d' m' -> dinv d m -> dinv d' m'.
Proof. induction 1 as [|d m op d' l d'' m'' S K R IH]; intros I; [exact I|]. apply IH. eapply dinv_step; eassumption. Qed.

(** ** keys that change *)
Lemma hash_of b : GetHashCode b = num LE (firstn 4 b).
Proof. exact (firstn_num (mkUInt CUIntBase b 0)). Qed.
(** a dict with one entry *)
Lemma dget_single w e k o : nth_error (objs w) k = Some o -> forall r, dget (mkDW w [e]) k r <->
  (r = Some (e_val e) /\ may_hit w k e) \/ (r = None /\ ~ hits w k e).
Proof.
  intros Ek r. split.
  - intros (p & L & ->). inversion L as [i e' Ei Hm|Lk Hn]; subst.
    + left. cbn [dw_dict dw_world] in *. destruct i as [|i]; [|destruct i; discriminate]. cbn [nth_error option_map] in *. assert (e' = e) as -> by congruence. auto.
    + right. split; [reflexivity|]. apply Hn. left. reflexivity.
  - intros [[-> Hm]|[-> Hn]].
    + exists (Some O). split; [|reflexivity]. apply (look_found _ _ O e); [reflexivity|exact Hm].
    + exists None. split; [|reflexivity]. apply look_none; [apply nth_error_Some; cbn [dw_world]; congruence|]. intros e' [<-|[]]. exact Hn.
Qed.
Lemma hits_of w k o e o' : nth_error (objs w) k = Some o -> nth_error (objs w) (e_key e) = Some o' ->
  hits w k e <-> e_hash e = o_hash o /\ (e_key e = k \/ data_of w o' = data_of w o).
Proof.
  intros Ek Ee. unfold hits. split.
  - intros (p & p' & Ep & Ep' & H & Q). assert (p = o) as -> by congruence. assert (p' = o') as -> by congruence. rewrite uint_eq_view in Q. auto.
  - intros [H Q]. exists o, o'. rewrite uint_eq_view. auto.
Qed.
Lemma runs_uint us : forall d l d', druns d (map DUInt us ++ l) d' -> druns (mkDW (run_uops us (dw_world d)) (dw_dict d)) l d'.
Proof.
  induction us as [|u us IH]; intros d l d' R; cbn [map app run_uops fold_left] in *; [destruct d; exact R|].
  inversion R as [|? ? d1 ? ? S R']; subst. inversion S; subst. apply IH in R'. exact R'.
Qed.
Lemma set_empty w k v l d' : druns (mkDW w []) (DSet k v :: l) d' -> exists o, nth_error (objs w) k = Some o /\ druns (mkDW w [mkEntry (o_hash o) k v]) l d'.
Proof.
  intros R. inversion R as [|? ? d1 ? ? S R']; subst. inversion S as [|k' v' i e L Ei|k' v' o L Eo| |]; subst.
  - cbn [dw_dict] in Ei. destruct i; discriminate.
  - exists o. split; [exact Eo|exact R'].
Qed.
Lemma step_inv d op l d' : druns d (op :: l) d' -> exists d1, dstep d op d1 /\ druns d1 l d'.
Proof. intros R. inversion R as [|? ? d1 ? ? S R']; subst. eauto. Qed.
Lemma runs_nil d d' : druns d [] d' -> d' = d.
Proof. intros R. inversion R. reflexivity. Qed.
(** the histories of C117 *)
Lemma shared_world cls b c cls' x : run_uops [Mutate 0 c; Construct cls' (length x) (ABytes x)]
    (run_uops [NewBytearray b; Construct cls (length b) (ACell 0)] empty_world) =
  mkWorld [c; x] [mkObj cls (DCell 0) (GetHashCode b); mkObj cls' (DCell 1) (GetHashCode x)].
Proof.
  unfold run_uops. cbn [fold_left ustep alloc snd]. unfold cell, zlen. cbn [cells objs empty_world app length nth Nat.ltb Nat.leb].
  rewrite Z.eqb_refl. cbn [negb add_obj cells objs app ustep M_UIntHeap.update]. unfold zlen. rewrite Z.eqb_refl. reflexivity.
Qed.
Lemma desert_world1 cls b : run_uops [Construct cls (length b) (ABytes b)] empty_world = mkWorld [b] [mkObj cls (DCell 0) (GetHashCode b)].
Proof. unfold run_uops. cbn [fold_left ustep]. unfold zlen. rewrite Z.eqb_refl. reflexivity. Qed.
Lemma desert_world2 cls b s cls' x : Z.of_nat (length b) <= maxsize ->
  run_uops [DeserializeAt 0 s; Construct cls' (length x) (ABytes x)] (mkWorld [b] [mkObj cls (DCell 0) (GetHashCode b)]) =
  mkWorld [b; x] [mkObj cls (DImm (firstn (length b) (remaining s))) (GetHashCode (firstn (length b) (remaining s))); mkObj cls' (DCell 1) (GetHashCode x)].
Proof.
  intros L. unfold run_uops. cbn [fold_left ustep nth_error objs]. rewrite Deserialize_any by exact L.
  cbn [o_cls u_data u_hash cells objs M_UIntHeap.update ustep]. unfold zlen. rewrite Z.eqb_refl. cbn [negb alloc add_obj cells objs app length].
  change (Size (view (mkWorld [b] [mkObj cls (DCell 0) (GetHashCode b)]) (mkObj cls (DCell 0) (GetHashCode b)))) with (length b). rewrite <- hash_of. reflexivity.
Qed.
(** for the examples *)
Lemma look_hit d k i e : nth_error (dw_dict d) i = Some e -> (exists o o', nth_error (objs (dw_world d)) k = Some o /\
  nth_error (objs (dw_world d)) (e_key e) = Some o' /\ e_hash e = o_hash o /\ data_of (dw_world d) o' = data_of (dw_world d) o) -> lookup d k (Some i).
Proof. intros E (o & o' & Ek & Ee & H & Q). apply (look_found d k i e E). left. apply (hits_of _ _ o _ o' Ek Ee). auto. Qed.
Lemma look_miss d k o : nth_error (objs (dw_world d)) k = Some o ->
  Forall (fun e => exists o', nth_error (objs (dw_world d)) (e_key e) = Some o' /\ ~ (e_hash e = o_hash o /\ (e_key e = k \/ data_of (dw_world d) o' = data_of (dw_world d) o))) (dw_dict d) -> lookup d k None.
Proof.
  intros Ek F. apply look_none; [apply nth_error_Some; congruence|]. intros e He. rewrite Forall_forall in F. destruct (F e He) as (o' & Ee & N). rewrite (hits_of _ _ o _ o' Ek Ee). exact N.
Qed.
