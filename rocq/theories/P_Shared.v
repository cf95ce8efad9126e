(** * P_Shared: threads sharing one stream, under every schedule (C112) *)
From Coq Require Import Lia ZifyBool ZifyNat.
From Verif Require Import M_Py M_UInt M_Writer M_Reader M_FloatIO M_ECCurve M_Stream M_Shared S_IO S_Stream S_Shared L_Bytes L_IO L_VarInt P_Stream.

(** ** every call is a tree of stream operations *)
Inductive ptree (A : Type) := PRet (r : res A) | PGet (n : Z) (k : res bytes -> ptree A) | PPut (b : bytes) (k : res Z -> ptree A).
Arguments PRet {A} r. Arguments PGet {A} n k. Arguments PPut {A} b k.
Fixpoint run_tree {A S} (dread : Z -> S -> res bytes * S) (dwrite : bytes -> S -> res Z * S) (t : ptree A) (s : S) : res A * S :=
  match t with
  | PRet r => (r, s)
  | PGet n k => let (r, s') := dread n s in run_tree dread dwrite (k r) s'
  | PPut b k => let (r, s') := dwrite b s in run_tree dread dwrite (k r) s'
  end.
Definition prog (A : Type) := forall S : Type, (Z -> S -> res bytes * S) -> (bytes -> S -> res Z * S) -> S -> res A * S.

Fixpoint tbind {A B} (t : ptree A) (f : A -> ptree B) : ptree B :=
  match t with
  | PRet (Ok a) => f a
  | PRet (Raise e) => PRet (Raise e)
  | PGet n k => PGet n (fun r => tbind (k r) f)
  | PPut b k => PPut b (fun r => tbind (k r) f)
  end.
Fixpoint ttry {A} (t : ptree A) (h : exn -> ptree A) : ptree A :=
  match t with
  | PRet (Ok a) => PRet (Ok a)
  | PRet (Raise e) => h e
  | PGet n k => PGet n (fun r => ttry (k r) h)
  | PPut b k => PPut b (fun r => ttry (k r) h)
  end.
Lemma run_tbind A B S dr dw (t : ptree A) (f : A -> ptree B) (s : S) :
  run_tree dr dw (tbind t f) s = match run_tree dr dw t s with (Ok a, s') => run_tree dr dw (f a) s' | (Raise e, s') => (Raise e, s') end.
Proof.
  revert s. induction t as [[a|e]|n k IH|b k IH]; intros s; cbn [tbind run_tree]; try reflexivity.
  - destruct (dr n s) as [r s']. apply IH.
  - destruct (dw b s) as [r s']. apply IH.
Qed.
Lemma run_ttry A S dr dw (t : ptree A) h (s : S) :
  run_tree dr dw (ttry t h) s = match run_tree dr dw t s with (Ok a, s') => (Ok a, s') | (Raise e, s') => run_tree dr dw (h e) s' end.
Proof.
  revert s. induction t as [[a|e]|n k IH|b k IH]; intros s; cbn [ttry run_tree]; try reflexivity.
  - destruct (dr n s) as [r s']. apply IH.
  - destruct (dw b s) as [r s']. apply IH.
Qed.
(** only reads *)
Fixpoint reads_only {A} (t : ptree A) : Prop :=
  match t with PRet _ => True | PGet _ k => forall r, reads_only (k r) | PPut _ _ => False end.
(** at most one operation *)
Definition one_op {A} (t : ptree A) : Prop :=
  match t with PRet _ => True | PGet _ k => forall r, exists x, k r = PRet x | PPut _ k => forall r, exists x, k r = PRet x end.
Fixpoint writes_only {A} (t : ptree A) : Prop :=
  match t with PRet _ => True | PPut _ k => forall r, writes_only (k r) | PGet _ _ => False end.

Definition tree_of {A} (m : prog A) (t : ptree A) : Prop := forall S dr dw s, m S dr dw s = run_tree dr dw t s.
Lemma t_lift A (r : res A) : tree_of (fun S dr dw => glift r) (PRet r).
Proof. intros S dr dw s. reflexivity. Qed.
Lemma t_ret A (a : A) : tree_of (fun S dr dw => gret a) (PRet (Ok a)).
Proof. intros S dr dw s. reflexivity. Qed.
Lemma t_raise A e : tree_of (fun S dr dw => @graise S A e) (PRet (Raise e)).
Proof. intros S dr dw s. reflexivity. Qed.
Lemma t_read n : tree_of (fun S dr dw => dr n) (PGet n PRet).
Proof. intros S dr dw s. cbn. destruct (dr n s). reflexivity. Qed.
Lemma t_write b : tree_of (fun S dr dw => dw b) (PPut b PRet).
Proof. intros S dr dw s. cbn. destruct (dw b s). reflexivity. Qed.
Lemma t_bind A B (m : prog A) t (f : A -> prog B) g : tree_of m t -> (forall a, tree_of (f a) (g a)) ->
  tree_of (fun S dr dw => gbind (m S dr dw) (fun a => f a S dr dw)) (tbind t g).
Proof. intros H F S dr dw s. rewrite run_tbind. unfold gbind. rewrite (H S dr dw s). destruct (run_tree dr dw t s) as [[a|e] s']; [apply F|reflexivity]. Qed.
Lemma t_try A (m : prog A) t (h : exn -> prog A) g : tree_of m t -> (forall e, tree_of (h e) (g e)) ->
  tree_of (fun S dr dw => gtry (m S dr dw) (fun e => h e S dr dw)) (ttry t g).
Proof. intros H F S dr dw s. rewrite run_ttry. unfold gtry. rewrite (H S dr dw s). destruct (run_tree dr dw t s) as [[a|e] s']; [reflexivity|apply F]. Qed.
Lemma t_map A B (f : A -> B) (m : prog A) t : tree_of m t -> tree_of (fun S dr dw => gmap f (m S dr dw)) (tbind t (fun a => PRet (Ok (f a)))).
Proof. intros H S dr dw s. rewrite run_tbind. unfold gmap. rewrite (H S dr dw s). destruct (run_tree dr dw t s) as [[a|e] s']; reflexivity. Qed.

(** ** reader calls *)
Definition isread {A} (m : prog A) : Type := { t | reads_only t /\ tree_of m t }.
Lemma ro_bind A B (t : ptree A) (g : A -> ptree B) : reads_only t -> (forall a, reads_only (g a)) -> reads_only (tbind t g).
Proof. intros H G. induction t as [[a|e]|n k IH|b k IH]; cbn [tbind reads_only] in *; [apply G|exact I|intros r; apply IH, H|exact H]. Qed.
Lemma ro_try A (t : ptree A) g : reads_only t -> (forall a, reads_only (g a)) -> reads_only (ttry t g).
Proof. intros H G. induction t as [[a|e]|n k IH|b k IH]; cbn [ttry reads_only] in *; [exact I|apply G|intros r; apply IH, H|exact H]. Qed.
Lemma r_lift A (r : res A) : isread (fun S dr dw => glift r).
Proof. exists (PRet r). split; [exact I|apply t_lift]. Qed.
Lemma r_ret A (a : A) : isread (fun S dr dw => gret a).
Proof. exists (PRet (Ok a)). split; [exact I|apply t_ret]. Qed.
Lemma r_raise A e : isread (fun S dr dw => @graise S A e).
Proof. exists (PRet (Raise e)). split; [exact I|apply t_raise]. Qed.
Lemma r_read n : isread (fun S dr dw => dr n).
Proof. exists (PGet n PRet). split; [intros r; exact I|apply t_read]. Qed.
Lemma r_bind A B (m : prog A) (f : A -> prog B) : isread m -> (forall a, isread (f a)) -> isread (fun S dr dw => gbind (m S dr dw) (fun a => f a S dr dw)).
Proof.
  intros [t [O T]] F. exists (tbind t (fun a => proj1_sig (F a))). split; [apply ro_bind; [exact O|intros a; exact (proj1 (proj2_sig (F a)))]|].
  apply t_bind; [exact T|intros a; exact (proj2 (proj2_sig (F a)))].
Qed.
Lemma r_try A (m : prog A) (f : exn -> prog A) : isread m -> (forall a, isread (f a)) -> isread (fun S dr dw => gtry (m S dr dw) (fun a => f a S dr dw)).
Proof.
  intros [t [O T]] F. exists (ttry t (fun a => proj1_sig (F a))). split; [apply ro_try; [exact O|intros a; exact (proj1 (proj2_sig (F a)))]|].
  apply t_try; [exact T|intros a; exact (proj2 (proj2_sig (F a)))].
Qed.
Lemma r_map A B (f : A -> B) (m : prog A) : isread m -> isread (fun S dr dw => gmap f (m S dr dw)).
Proof. intros [t [O T]]. eexists. split; [|apply t_map; exact T]. apply ro_bind; [exact O|intros a; exact I]. Qed.
Lemma r_ext A (m m' : prog A) : (forall S dr dw s, m S dr dw s = m' S dr dw s) -> isread m -> isread m'.
Proof. intros E [t [O T]]. exists t. split; [exact O|]. intros S dr dw s. rewrite <- E. apply T. Qed.
Lemma r_repeat A (m : prog A) n : isread m -> isread (fun S dr dw => grepeat n (m S dr dw)).
Proof.
  intros H. induction n; cbn [grepeat]; [apply r_ret|].
  apply (r_bind _ _ m (fun x S dr dw => gbind (grepeat n (m S dr dw)) (fun l => gret (x :: l)))); [exact H|]. intros a.
  apply (r_bind _ _ (fun S dr dw => grepeat n (m S dr dw)) (fun l S dr dw => gret (a :: l))); [exact IHn|]. intros l. apply r_ret.
Qed.
Lemma r_loop A (m : prog A) n : isread m -> isread (fun S dr dw => gdeserialize_loop (m S dr dw) n).
Proof.
  intros H. induction n; cbn [gdeserialize_loop]; [apply r_ret|].
  (* try: the item as Some, an exception as None *)
  apply (r_ext _ (fun S dr dw => gbind (gtry (gbind (m S dr dw) (fun a => gret (Some a))) (fun _ => gret None))
     (fun o => match o with None => gret [] | Some a => gbind (gdeserialize_loop (m S dr dw) n) (fun l => gret (a :: l)) end))).
  { intros S dr dw s. unfold gbind, gtry, gret. destruct (m S dr dw s) as [[a|e] s']; [|reflexivity]. destruct (gdeserialize_loop (m S dr dw) n s') as [[l|e] s'']; reflexivity. }
  apply (r_bind _ _ (fun S dr dw => gtry (gbind (m S dr dw) (fun a => gret (Some a))) (fun _ => gret None))
    (fun o S dr dw => match o with None => gret [] | Some a => gbind (gdeserialize_loop (m S dr dw) n) (fun l => gret (a :: l)) end)).
  - apply (r_try _ (fun S dr dw => gbind (m S dr dw) (fun a => gret (Some a))) (fun _ S dr dw => gret None)); [|intros e; apply r_ret].
    apply (r_bind _ _ m (fun a S dr dw => gret (Some a))); [exact H|intros a; apply r_ret].
  - intros [a|]; [|apply r_ret]. apply (r_bind _ _ (fun S dr dw => gdeserialize_loop (m S dr dw) n) (fun l S dr dw => gret (a :: l))); [exact IHn|intros l; apply r_ret].
Qed.
Lemma r_Byte : isread (fun S dr dw => gReadByte dr).
Proof.
  apply (r_try _ (fun S dr dw => gbind (dr 1) (fun b => match b with [x] => gret (b2z x) | _ => graise TypeError end)) (fun _ S dr dw => gret 0)); [|intros e; apply r_ret].
  apply (r_bind _ _ (fun S dr dw => dr 1) (fun b S dr dw => match b with [x] => gret (b2z x) | _ => graise TypeError end)); [apply r_read|].
  intros [|x [|y b]]; [apply r_raise|apply r_ret|apply r_raise].
Qed.
Lemma r_then A n (f : bytes -> res A) : isread (fun S dr dw => gbind (dr n) (fun b => glift (f b))).
Proof. apply (r_bind _ _ (fun S dr dw => dr n) (fun b S dr dw => glift (f b))); [apply r_read|intros b; apply r_lift]. Qed.
Lemma r_VarInt max : isread (fun S dr dw => gReadVarInt dr max).
Proof.
  apply (r_bind _ _ (fun S dr dw => gReadByte dr) (fun fb S dr dw => if fb =? 0 then gret fb else gbind (if fb =? 253 then gunpack_int dr LE false 2 else if fb =? 254 then gunpack_int dr LE false 4 else if fb =? 255 then gunpack_int dr LE false 8 else gret fb)
     (fun value => if value >? max then graise PlainException else gret value))); [apply r_Byte|]. intros fb. destruct (fb =? 0); [apply r_ret|].
  apply (r_bind _ _ (fun S dr dw => if fb =? 253 then gunpack_int dr LE false 2 else if fb =? 254 then gunpack_int dr LE false 4 else if fb =? 255 then gunpack_int dr LE false 8 else gret fb)
     (fun value S dr dw => if value >? max then graise PlainException else gret value)).
  - destruct (fb =? 253); [apply r_then|]. destruct (fb =? 254); [apply r_then|]. destruct (fb =? 255); [apply r_then|apply r_ret].
  - intros v. destruct (v >? max); [apply r_raise|apply r_ret].
Qed.
Lemma r_call c : isread (fun S dr dw => gread dr c).
Proof.
  destruct c; cbn [gread].
  - apply r_map, r_then.
  - apply r_map, r_then.
  - apply r_map, r_then.
  - apply r_map. apply (r_bind _ _ (fun S dr dw => dr n) (fun b S dr dw => if zlen b <? n then graise ValueError else gret b)); [apply r_read|]. intros b. destruct (zlen b <? n); [apply r_raise|apply r_ret].
  - apply r_map. apply (r_bind _ _ (fun S dr dw => gunpack_int dr LE false 1) (fun n S dr dw => gunpack_s dr n)); [apply r_then|]. intros n. apply r_then.
  - apply r_map, r_then.
  - apply r_map, r_then.
  - apply r_map, r_then.
  - apply r_map, r_then.
  - apply r_map, r_then.
  - apply r_map, r_Byte.
  - apply r_map, r_read.
  - apply r_map, r_VarInt.
  - apply r_map. apply (r_bind _ _ (fun S dr dw => gReadVarInt dr max) (fun n S dr dw => gReadBytes dr n)); [apply r_VarInt|]. intros n. apply r_read.
  - apply r_map. apply (r_bind _ _ (fun S dr dw => gReadVarInt dr max) (fun n S dr dw => gunpack_s dr n)); [apply r_VarInt|]. intros n. apply r_then.
  - apply r_map. apply (r_bind _ _ (fun S dr dw => dr n) (fun b S dr dw => gret (rstrip0 b))); [apply r_read|]. intros b. apply r_ret.
  - apply r_map. apply (r_bind _ _ (fun S dr dw => gReadVarInt dr maxsize) (fun n S dr dw => grepeat (Z.to_nat n) (gread_hash dr))); [apply r_VarInt|]. intros n.
    apply (r_repeat _ (fun S dr dw => gread_hash dr)). apply (r_bind _ _ (fun S dr dw => dr 32) (fun b S dr dw => gret (hex (rev b)))); [apply r_read|intros b; apply r_ret].
  - apply r_map. apply (r_bind _ _ (fun S dr dw => gReadVarInt dr max) (fun n S dr dw => gdeserialize_loop (guint_Deserialize dr (k_new UInt256_klass)) (Z.to_nat n))); [apply r_VarInt|]. intros n.
    apply (r_loop _ (fun S dr dw => guint_Deserialize dr (k_new UInt256_klass))).
    apply (r_bind _ _ (fun S dr dw => dr (Z.of_nat (Size (k_new UInt256_klass)))) (fun b S dr dw => gret (mkUInt (u_cls (k_new UInt256_klass)) b (GetHashCode b)))); [apply r_read|intros b; apply r_ret].
  - apply r_map. apply (r_bind _ _ (fun S dr dw => gReadByte dr) (fun f S dr dw => if f =? 0 then gret Infinity
      else if (f =? 2) || (f =? 3) then gbind (gReadBytes dr 32) (fun data => glift (decompress_from_curve c (coord data) (Z.land f 1)))
      else if (f =? 4) || (f =? 6) || (f =? 7) then graise NotImplementedError else graise PlainException)); [apply r_Byte|]. intros f.
    destruct (f =? 0); [apply r_ret|]. destruct ((f =? 2) || (f =? 3)); [apply r_then|]. destruct ((f =? 4) || (f =? 6) || (f =? 7)); apply r_raise.
Qed.

(** ** writer calls *)
Fixpoint put_tree (l : list bytes) (r : res unit) : ptree unit :=
  match l with [] => PRet r | b :: l => PPut b (fun x => match x with Ok _ => put_tree l r | Raise e => PRet (Raise e) end) end.
Lemma put_tree_run S (dr : Z -> S -> res bytes * S) dw l r : forall s, run_tree dr dw (put_tree l r) s = feed dw l r s.
Proof. induction l as [|b l IH]; intros s; cbn [put_tree run_tree feed]; [reflexivity|]. destruct (dw b s) as [[n|e] s']; [apply IH|reflexivity]. Qed.
Lemma put_tree_writes l r : writes_only (put_tree l r).
Proof. induction l as [|b l IH]; cbn [put_tree writes_only]; [exact I|]. intros [n|e]; [exact IH|exact I]. Qed.
Lemma wo_map A B (f : A -> B) (t : ptree A) : writes_only t -> writes_only (tbind t (fun a => PRet (Ok (f a)))).
Proof. intros H. induction t as [[a|e]|n k IH|b k IH]; cbn [tbind writes_only] in *; [exact I|exact I|exact H|intros r; apply IH, H]. Qed.
Lemma ro_map A B (f : A -> B) (t : ptree A) : reads_only t -> reads_only (tbind t (fun a => PRet (Ok (f a)))).
Proof. intros H. apply ro_bind; [exact H|intros a; exact I]. Qed.
Lemma w_call c : exists t, writes_only t /\ tree_of (fun S dr dw => gwrite dw c) t.
Proof.
  destruct (f_write c) as (l & r & E). exists (put_tree l r). split; [apply put_tree_writes|].
  intros S dr dw s. rewrite put_tree_run. apply E.
Qed.
Lemma call_tree c : exists t, tree_of (fun S dr dw => gcall dr dw c) t /\ (is_write c -> writes_only t).
Proof.
  destruct c as [c|c]; cbn [gcall].
  - destruct (r_call c) as (t & O & T). eexists. split; [apply (t_map _ _ RVal (fun S dr dw => gread dr c)); exact T|]. intros [].
  - destruct (w_call c) as (t & O & T). eexists. split; [apply (t_map _ _ (fun _ => RDone) (fun S dr dw => gwrite dw c)); exact T|]. intros _. apply wo_map. exact O.
Qed.

(** ** following a tree with the answers so far *)
Fixpoint follow {A} (t : ptree A) (l : list answer) : ptree A :=
  match t, l with
  | PGet n k, AData r :: l => follow (k r) l
  | PPut b k, AWrote r :: l => follow (k r) l
  | _, _ => t
  end.
Fixpoint consumed {A} (t : ptree A) (l : list answer) : Prop :=
  match t, l with
  | _, [] => True
  | PGet n k, AData r :: l => consumed (k r) l
  | PPut b k, AWrote r :: l => consumed (k r) l
  | _, _ => False
  end.
Lemma follow_nil A (t : ptree A) : follow t [] = t.
Proof. destruct t; reflexivity. Qed.
Lemma follow_app A (t : ptree A) l1 l2 : consumed t l1 -> follow t (l1 ++ l2) = follow (follow t l1) l2.
Proof.
  revert l1. induction t as [r|n k IH|b k IH]; intros [|a l1] H; cbn [app follow consumed] in *; try reflexivity; try contradiction.
  - destruct a as [r|r]; [|contradiction]. apply IH, H.
  - destruct a as [r|r]; [contradiction|]. apply IH, H.
Qed.
Lemma consumed_app A (t : ptree A) l1 l2 : consumed t l1 -> consumed (follow t l1) l2 -> consumed t (l1 ++ l2).
Proof.
  revert l1. induction t as [r|n k IH|b k IH]; intros [|a l1] H G; cbn [app follow consumed] in *; try exact G; try contradiction.
  - destruct a as [r|r]; [|contradiction]. apply IH; assumption.
  - destruct a as [r|r]; [contradiction|]. apply IH; assumption.
Qed.
Lemma follow_writes A (t : ptree A) l : writes_only t -> writes_only (follow t l).
Proof.
  revert l. induction t as [r|n k IH|b k IH]; intros [|a l] H; cbn [follow]; try exact H.
  - contradiction H.
  - destruct a as [r|r]; [exact H|]. apply IH, H.
Qed.
Lemma run_blocked A (t : ptree A) l q : exists x, run_tree tape_read tape_write t (l, Some q) = (x, (l, Some q)).
Proof.
  induction t as [r|n k IH|b k IH]; cbn [run_tree].
  - exists r. reflexivity.
  - replace (tape_read n (l, Some q)) with (@Ok bytes [], (l, Some q)) by (destruct l as [|[]]; reflexivity). apply IH.
  - replace (tape_write b (l, Some q)) with (Ok 0, (l, Some q)) by (destruct l as [|[]]; reflexivity). apply IH.
Qed.
Definition where_ {A} (t : ptree A) (fin : res A -> outcome) : outcome :=
  match t with PRet r => fin r | PGet n _ => Blocked (QRead n) | PPut b _ => Blocked (QWrite b) end.
Lemma replay_follow c t l : tree_of (fun S dr dw => gcall dr dw c) t -> replay c l = where_ (follow t l) Finished.
Proof.
  intros T. unfold replay. rewrite (T _ tape_read tape_write (l, None)). clear T. revert l.
  induction t as [r|n k IH|b k IH]; intros l; cbn [run_tree].
  - reflexivity.
  - destruct l as [|[r|r] l]; cbn [tape_read follow].
    + destruct (run_blocked _ (k (Ok [])) [] (QRead n)) as [x ->]. reflexivity.
    + apply IH.
    + destruct (run_blocked _ (k (Ok [])) [] (QRead n)) as [x ->]. reflexivity.
  - destruct l as [|[r|r] l]; cbn [tape_write follow].
    + destruct (run_blocked _ (k (Ok 0)) [] (QWrite b)) as [x ->]. reflexivity.
    + destruct (run_blocked _ (k (Ok 0)) [] (QWrite b)) as [x ->]. reflexivity.
    + apply IH.
Qed.
Lemma do_call_run c t s : tree_of (fun S dr dw => gcall dr dw c) t -> do_call c s = run_tree bio_read bio_write t s.
Proof.
  intros T. rewrite <- (T _ bio_read bio_write s). destruct c as [c|c]; cbn [do_call gcall]; unfold gmap.
  - rewrite C93_bytesio. reflexivity.
  - rewrite C94_bytesio. reflexivity.
Qed.

(** ** one thread alone *)
Fixpoint solo (k : nat) (s : stream) (t : sthread) : stream * sthread :=
  match k with O => (s, t) | S k => let (s', t') := sstep s t in solo k s' t' end.
Lemma replace_nth A (l : list A) i x : nth_error l i = Some x -> replace l i x = l.
Proof. revert i. induction l as [|y r IH]; intros [|i] H; cbn in *; try discriminate; [congruence|]. f_equal. apply IH, H. Qed.
Lemma nth_replace A (l : list A) i x y : nth_error l i = Some y -> nth_error (replace l i x) i = Some x.
Proof. revert i. induction l as [|z r IH]; intros [|i] H; cbn in *; try discriminate; [reflexivity|]. apply IH, H. Qed.
Lemma nth_replace_other A (l : list A) i j x : i <> j -> nth_error (replace l i x) j = nth_error l j.
Proof. revert i j. induction l as [|z r IH]; intros [|i] [|j] H; cbn in *; try reflexivity; try congruence. apply IH. congruence. Qed.
Lemma replace_replace A (l : list A) i x y : replace (replace l i x) i y = replace l i y.
Proof. revert i. induction l as [|z r IH]; intros [|i]; cbn; try reflexivity. f_equal. apply IH. Qed.
Lemma wrun_repeat i k : forall s ts t, nth_error ts i = Some t ->
  wrun (mkShared s ts) (repeat i k) = let (s', t') := solo k s t in mkShared s' (replace ts i t').
Proof.
  induction k as [|k IH]; intros s ts t H; cbn [repeat solo wrun fold_left].
  - rewrite replace_nth by exact H. reflexivity.
  - unfold wstep at 2. cbn [sh_threads sh_stream]. rewrite H. destruct (sstep s t) as [s' t'].
    specialize (IH s' (replace ts i t') t' (nth_replace _ _ _ _ _ H)). unfold wrun in IH. rewrite IH.
    destruct (solo k s' t') as [s'' t'']. rewrite replace_replace. reflexivity.
Qed.
(** from the middle of a call to its end *)
Lemma solo_call c T prog results : tree_of (fun S dr dw => gcall dr dw c) T -> prog results = Some c ->
  forall U l s, consumed T l -> follow T l = U -> (match U with PRet _ => l = [] | _ => True end) ->
  exists k, solo k s (mkSThread prog results l) = let (r, s') := run_tree bio_read bio_write U s in (s', mkSThread prog (r :: results) []).
Proof.
  intros HT Hc. induction U as [r|n k IH|b k IH]; intros l s C F L.
  - exists 1%nat. cbn [solo run_tree]. unfold sstep. cbn [st_prog st_results st_answers]. rewrite Hc, (replay_follow c T l HT), F. reflexivity.
  - cbn [run_tree]. assert (forall s, sstep s (mkSThread prog results l) = let (r, s') := bio_read n s in (s', resume c (mkSThread prog results l) (AData r))) as E.
    { intros s0. unfold sstep. cbn [st_prog st_results st_answers]. rewrite Hc, (replay_follow c T l HT), F. reflexivity. }
    destruct (bio_read n s) as [r s'] eqn:Er.
    assert (follow T (l ++ [AData r]) = k r) as F2. { rewrite follow_app by exact C. rewrite F. cbn [follow]. apply follow_nil. }
    assert (consumed T (l ++ [AData r])) as C2. { apply consumed_app; [exact C|]. rewrite F. cbn [consumed]. destruct (k r); exact I. }
    assert (resume c (mkSThread prog results l) (AData r) = match k r with PRet x => mkSThread prog (x :: results) [] | _ => mkSThread prog results (l ++ [AData r]) end) as R.
    { unfold resume. cbn [st_prog st_results st_answers]. rewrite (replay_follow c T _ HT), F2. destruct (k r); reflexivity. }
    destruct (match k r with PRet _ => true | _ => false end) eqn:K.
    + exists 1%nat. cbn [solo]. rewrite E, Er, R. destruct (k r); try discriminate. reflexivity.
    + destruct (IH r (l ++ [AData r]) s' C2 F2) as [m Hm]; [destruct (k r); try exact I; discriminate|].
      exists (S m). cbn [solo]. rewrite E, Er, R. destruct (k r); try discriminate; exact Hm.
  - cbn [run_tree]. assert (forall s, sstep s (mkSThread prog results l) = let (r, s') := bio_write b s in (s', resume c (mkSThread prog results l) (AWrote r))) as E.
    { intros s0. unfold sstep. cbn [st_prog st_results st_answers]. rewrite Hc, (replay_follow c T l HT), F. reflexivity. }
    destruct (bio_write b s) as [r s'] eqn:Er.
    assert (follow T (l ++ [AWrote r]) = k r) as F2. { rewrite follow_app by exact C. rewrite F. cbn [follow]. apply follow_nil. }
    assert (consumed T (l ++ [AWrote r])) as C2. { apply consumed_app; [exact C|]. rewrite F. cbn [consumed]. destruct (k r); exact I. }
    assert (resume c (mkSThread prog results l) (AWrote r) = match k r with PRet x => mkSThread prog (x :: results) [] | _ => mkSThread prog results (l ++ [AWrote r]) end) as R.
    { unfold resume. cbn [st_prog st_results st_answers]. rewrite (replay_follow c T _ HT), F2. destruct (k r); reflexivity. }
    destruct (match k r with PRet _ => true | _ => false end) eqn:K.
    + exists 1%nat. cbn [solo]. rewrite E, Er, R. destruct (k r); try discriminate. reflexivity.
    + destruct (IH r (l ++ [AWrote r]) s' C2 F2) as [m Hm]; [destruct (k r); try exact I; discriminate|].
      exists (S m). cbn [solo]. rewrite E, Er, R. destruct (k r); try discriminate; exact Hm.
Qed.

(** A call that no other thread interrupts does on the shared stream what it does in a program with
    one thread. *)
Theorem C112_uninterrupted : forall w i t, nth_error (sh_threads w) i = Some t -> idle t ->
  exists k, wrun w (repeat i k) = whole_call w i.
Proof.
  intros [s ts] i t H Hi. cbn [sh_threads] in H. destruct t as [prog results l]. unfold idle in Hi. cbn [st_answers] in Hi. subst l.
  unfold whole_call. cbn [sh_threads sh_stream]. rewrite H. cbn [st_prog st_results].
  destruct (prog results) as [c|] eqn:Hc.
  - destruct (call_tree c) as (T & HT & _). rewrite (do_call_run c T s HT).
    destruct (solo_call c T prog results HT Hc T [] s) as [k Hk]; [destruct T; exact I|apply follow_nil|destruct T; reflexivity || exact I|].
    exists k. rewrite (wrun_repeat i k s ts _ H), Hk. destruct (run_tree bio_read bio_write T s) as [r s']. reflexivity.
  - exists 0%nat. reflexivity.
Qed.
Print Assumptions C112_uninterrupted.

(** ** calls with one stream operation *)
Definition isone {A} (m : prog A) : Prop := exists t, one_op t /\ tree_of m t.
Lemma oo_map A B (f : A -> B) (t : ptree A) : one_op t -> one_op (tbind t (fun a => PRet (Ok (f a)))).
Proof.
  destruct t as [[a|e]|n k|b k]; cbn [tbind one_op]; intros H; try exact I.
  - intros r. destruct (H r) as [[a|e] ->]; eexists; reflexivity.
  - intros r. destruct (H r) as [[a|e] ->]; eexists; reflexivity.
Qed.
Lemma o_map A B (f : A -> B) (m : prog A) : isone m -> isone (fun S dr dw => gmap f (m S dr dw)).
Proof. intros (t & O & T). eexists. split; [|apply t_map; exact T]. apply oo_map, O. Qed.
Lemma o_ext A (m m' : prog A) : (forall S dr dw s, m S dr dw s = m' S dr dw s) -> isone m -> isone m'.
Proof. intros E (t & O & T). exists t. split; [exact O|]. intros S dr dw s. rewrite <- E. apply T. Qed.
Lemma o_lift A (r : res A) : isone (fun S dr dw => glift r).
Proof. exists (PRet r). split; [exact I|apply t_lift]. Qed.
Lemma o_write b : isone (fun S dr dw => dw b).
Proof. exists (PPut b PRet). split; [intros r; exists r; reflexivity|apply t_write]. Qed.
Lemma o_read n : isone (fun S dr dw => dr n).
Proof. exists (PGet n PRet). split; [intros r; exists r; reflexivity|apply t_read]. Qed.
Lemma o_then A B (m : prog A) (f : A -> res B) : isone m -> isone (fun S dr dw => gbind (m S dr dw) (fun a => glift (f a))).
Proof.
  intros (t & O & T). exists (tbind t (fun a => PRet (f a))). split.
  - destruct t as [[a|e]|n k|b k]; cbn [tbind one_op] in *; try exact I.
    + intros r. destruct (O r) as [[a|e] ->]; eexists; reflexivity.
    + intros r. destruct (O r) as [[a|e] ->]; eexists; reflexivity.
  - apply (t_bind _ _ m t (fun a S dr dw => glift (f a))); [exact T|]. intros a. apply t_lift.
Qed.
Lemma o_first A B (r : res A) (f : A -> prog B) : (forall a, isone (f a)) -> isone (fun S dr dw => gbind (glift r) (fun a => f a S dr dw)).
Proof.
  intros H. destruct r as [a|e].
  - destruct (H a) as (t & O & T). exists t. split; [exact O|]. exact T.
  - exists (PRet (Raise e)). split; [exact I|]. intros S dr dw s. reflexivity.
Qed.
Lemma o_stream_write v : isone (fun S dr dw => gstream_write dw v).
Proof. destruct v; cbn [gstream_write]; first [apply o_write | exact (o_lift _ (Raise TypeError))]. Qed.
Lemma o_WriteBytes v u : isone (fun S dr dw => gWriteBytes dw v u).
Proof.
  destruct u; cbn [gWriteBytes]; [|apply o_stream_write]. destruct (unhexlify v) as [b|e]; [apply o_write|].
  destruct e; first [apply o_stream_write | match goal with |- context [graise ?e] => exact (o_lift _ (Raise e)) end].
Qed.
Lemma o_write_tt b : isone (fun S dr dw => gbind (dw b) (fun _ => gret tt)).
Proof. exact (o_then _ _ (fun S dr dw => dw b) (fun _ => Ok tt) (o_write b)). Qed.
Lemma o_WriteByte v : isone (fun S dr dw => gWriteByte dw v).
Proof.
  destruct v; cbn [gWriteByte]; try exact (o_lift _ (Ok tt)); [apply o_write_tt| |].
  - apply (o_first _ _ (utf8_encode s) (fun b S dr dw => gbind (dw b) (fun _ => gret tt))). intros b. apply o_write_tt.
  - destruct ((0 <=? z) && (z <=? 255)); [apply o_write_tt|exact (o_lift _ (Raise ValueError))].
Qed.
Lemma o_first_bytes (r : res bytes) : isone (fun S dr dw => gbind (glift r) (fun b => gWriteBytes dw (VBytes b) false)).
Proof. apply (o_first _ _ r (fun b S dr dw => gWriteBytes dw (VBytes b) false)). intros b. apply o_WriteBytes. Qed.
Lemma o_serialize u : isone (fun S dr dw => guint_Serialize dw u).
Proof. exact (o_then _ _ (fun S dr dw => gWriteBytes dw (VBytearray (u_data u)) true) (fun _ => Ok tt) (o_WriteBytes _ _)). Qed.
Lemma o_Byte : isone (fun S dr dw => gReadByte dr).
Proof.
  exists (PGet 1 (fun r => PRet (match r with Ok [x] => Ok (b2z x) | _ => Ok 0 end))). split; [intros r; eexists; reflexivity|].
  intros S dr dw s. cbn [run_tree]. unfold gReadByte, gtry, gbind, gret, graise. destruct (dr 1 s) as [[[|x [|y b]]|e] s']; reflexivity.
Qed.
Lemma o_call c : one_use c -> isone (fun S dr dw => gcall dr dw c).
Proof.
  destruct c as [c|c]; intros H; cbn [gcall].
  - apply o_map. destruct c; cbn [gread]; try contradiction H; apply o_map; try apply o_Byte; try apply o_read;
      try exact (o_then _ _ (fun S dr dw => dr _) _ (o_read _)).
    + apply (o_ext _ (fun S dr dw => gbind (dr n) (fun b => glift (if zlen b <? n then Raise ValueError else Ok b)))); [|exact (o_then _ _ (fun S dr dw => dr n) _ (o_read n))].
      intros S dr dw s. unfold gSafeReadBytes, gReadBytes, gbind, glift, gret, graise. destruct (dr n s) as [[b|e] s']; [|reflexivity]. destruct (zlen b <? n); reflexivity.
  - apply o_map. destruct c; cbn [gwrite]; try contradiction H.
    + apply o_map, o_first_bytes.
    + apply o_WriteByte.
    + apply o_map, o_WriteBytes.
    + apply o_map, o_first_bytes.
    + apply o_map, o_WriteBytes.
    + apply o_map, o_first_bytes.
    + apply o_map, o_first_bytes.
    + cbn [one_use] in H. apply o_map. unfold gWriteVarInt. destruct (as_int v) as [z|]; [|exact (o_lift _ (Raise TypeError))].
      destruct (z <? 0); [exact (o_lift _ (Raise PlainException))|]. destruct (z <? 253) eqn:E; [|lia].
      exact (o_then _ _ (fun S dr dw => gWriteByte dw v) (fun _ => Ok None) (o_WriteByte v)).
    + destruct u as [u|]; cbn [gWriteUInt160]; [|exact (o_lift _ (Raise PlainException))].
      destruct (u_cls u); try exact (o_lift _ (Raise PlainException)). apply o_serialize.
    + destruct u as [u|]; cbn [gWriteUInt256]; [|exact (o_lift _ (Raise PlainException))].
      destruct (u_cls u); try exact (o_lift _ (Raise PlainException)). apply o_serialize.
    + apply o_map, o_first_bytes.
Qed.
Lemma sstep_one s t : idle t -> only one_use t ->
  sstep s t = match st_prog t (st_results t) with None => (s, t) | Some c => let (r, s') := do_call c s in (s', finish t r) end.
Proof.
  destruct t as [prog results l]. intros Hi Ho. unfold idle in Hi. cbn [st_answers] in Hi. subst l. unfold sstep. cbn [st_prog st_results st_answers].
  destruct (prog results) as [c|] eqn:Hc; [|reflexivity]. destruct (o_call c (Ho _ _ Hc)) as (T & O & HT).
  rewrite (do_call_run c T s HT), (replay_follow c T [] HT), follow_nil. destruct T as [r|n k|b k]; cbn [where_ run_tree]; [reflexivity| |].
  - destruct (bio_read n s) as [r s']. unfold resume. cbn [st_answers app st_prog]. rewrite (replay_follow c _ _ HT). cbn [follow]. rewrite follow_nil.
    destruct (O r) as [x ->]. reflexivity.
  - destruct (bio_write b s) as [r s']. unfold resume. cbn [st_answers app st_prog]. rewrite (replay_follow c _ _ HT). cbn [follow]. rewrite follow_nil.
    destruct (O r) as [x ->]. reflexivity.
Qed.

(** Threads whose calls use the stream once each see the same as threads that take turns, one whole
    call after another, in the order of the schedule. *)
Theorem C112_atomic : forall schedule w, Forall (fun t => idle t /\ only one_use t) (sh_threads w) ->
  wrun w schedule = fold_left whole_call schedule w.
Proof.
  induction schedule as [|i l IH]; intros w H; [reflexivity|]. cbn [wrun fold_left].
  assert (wstep w i = whole_call w i /\ Forall (fun t => idle t /\ only one_use t) (sh_threads (whole_call w i))) as [E F].
  { unfold wstep, whole_call. destruct (nth_error (sh_threads w) i) as [t|] eqn:Ht; [|split; [reflexivity|exact H]].
    pose proof (proj1 (Forall_forall _ _) H t (nth_error_In _ _ Ht)) as [Hi Ho]. rewrite (sstep_one _ t Hi Ho).
    destruct (st_prog t (st_results t)) as [c|]; [|split; [destruct w as [s ts]; cbn [sh_stream sh_threads] in *; rewrite replace_nth by exact Ht; reflexivity|exact H]].
    destruct (do_call c (sh_stream w)) as [r s']. split; [reflexivity|]. cbn [sh_threads].
    assert (idle (finish t r) /\ only one_use (finish t r)) as Hf by (split; [reflexivity|exact Ho]).
    clear -H Hf. revert i. induction H as [|x l Hx Hl IHl]; intros [|i]; cbn [replace]; try constructor; auto. }
  rewrite E. apply IH, F.
Qed.
Print Assumptions C112_atomic.

(** ** writers only *)
Lemma bio_write_len b pre : bio_write b (at_end pre) = (Ok (zlen b), at_end (pre ++ b)).
Proof.
  destruct b as [|x b]; [rewrite app_nil_r; reflexivity|]. unfold bio_write, at_end. cbn [content position].
  rewrite firstn_all, Nat.sub_diag. cbn [repeat]. rewrite (skipn_all2 pre) by lia. rewrite !app_nil_r. cbn [app]. f_equal. f_equal.
  rewrite app_length. reflexivity.
Qed.
Lemma sstep_write t : only is_write t -> exists b t', only is_write t' /\ forall p, sstep (at_end p) t = (at_end (p ++ b), t').
Proof.
  intros Ho. unfold sstep. destruct (st_prog t (st_results t)) as [c|] eqn:Hc.
  - destruct (call_tree c) as (T & HT & O). specialize (O (Ho _ _ Hc)). rewrite (replay_follow c T _ HT).
    pose proof (follow_writes _ T (st_answers t) O) as W. destruct (follow T (st_answers t)) as [r|n k|b k]; cbn [where_].
    + exists [], (finish t r). split; [exact Ho|]. intros p. rewrite app_nil_r. reflexivity.
    + contradiction W.
    + exists b, (resume c t (AWrote (Ok (zlen b)))). split.
      * unfold resume. destruct (replay c (st_answers t ++ [AWrote (Ok (zlen b))])); exact Ho.
      * intros p. rewrite bio_write_len. reflexivity.
  - exists [], t. split; [exact Ho|]. intros p. rewrite app_nil_r. reflexivity.
Qed.
Lemma sstep_inert s t : st_prog t (st_results t) = None -> sstep s t = (s, t).
Proof. intros H. unfold sstep. rewrite H. reflexivity. Qed.
Lemma solo_app k m : forall s t, solo (k + m) s t = let (s', t') := solo k s t in solo m s' t'.
Proof. induction k as [|k IH]; intros s t; cbn [Nat.add solo]; [reflexivity|]. destruct (sstep s t) as [s' t']. apply IH. Qed.
Lemma solo_write k : forall t, only is_write t -> forall p q s' t', solo k (at_end p) t = (s', t') -> s' = at_end (p ++ q) -> solo k (at_end []) t = (at_end q, t').
Proof.
  induction k as [|k IH]; intros t Ho p q s' t' H E; cbn [solo] in *.
  - assert (t = t') as <- by congruence. assert (s' = at_end p) as E2 by congruence. rewrite E2 in E. apply at_end_inj in E.
    assert (q = []) as ->. { apply (app_inv_head p). rewrite app_nil_r. congruence. } reflexivity.
  - destruct (sstep_write t Ho) as (b & t1 & Ho1 & E1). rewrite E1 in *. cbn [app].
    assert (exists q2, s' = at_end ((p ++ b) ++ q2) /\ solo k (at_end b) t1 = (at_end (b ++ q2), t')) as (q2 & E3 & E4).
    { clear IH E. assert (exists q2, (s' = at_end ((p ++ b) ++ q2)) /\ forall z, solo k (at_end z) t1 = (at_end (z ++ q2), t')) as (q2 & A & B).
      2:{ exists q2. split; [exact A|apply B]. }
      clear E1. revert t1 Ho1 H. generalize (p ++ b) as z. clear p b q. induction k as [|k IH]; intros z t1 Ho1 H; cbn [solo] in *.
      - exists []. rewrite app_nil_r. split; [congruence|]. intros z2. rewrite app_nil_r. congruence.
      - destruct (sstep_write t1 Ho1) as (b & t2 & Ho2 & E). rewrite E in H. destruct (IH _ _ Ho2 H) as (q2 & A & B).
        exists (b ++ q2). split; [rewrite A, <- !app_assoc; reflexivity|]. intros z2. rewrite E, B, <- app_assoc. reflexivity. }
    rewrite E4. rewrite E3 in E. apply at_end_inj in E. rewrite <- app_assoc in E. apply app_inv_head in E. rewrite E. reflexivity.
Qed.

(** Threads that only write, on a stream that is at its end, never overwrite or lose a byte: the
    schedule appends one piece (possibly empty) per step, and thread i has written what it writes when
    it runs alone for as many steps. *)
Theorem C112_append : forall schedule w pre, Forall (only is_write) (sh_threads w) -> sh_stream w = at_end pre ->
  exists pieces, List.length pieces = List.length schedule /\
    sh_stream (wrun w schedule) = at_end (pre ++ concat pieces) /\
    List.length (sh_threads (wrun w schedule)) = List.length (sh_threads w) /\
    forall i t, nth_error (sh_threads w) i = Some t ->
      exists t', nth_error (sh_threads (wrun w schedule)) i = Some t' /\
        wrun (mkShared (at_end []) [t]) (repeat 0%nat (count_occ Nat.eq_dec schedule i)) =
          mkShared (at_end (own i schedule pieces)) [t'].
Proof.
  assert (forall k t, let (s', t') := solo k (at_end []) t in wrun (mkShared (at_end []) [t]) (repeat 0%nat k) = mkShared s' [t']) as Solo.
  { intros k t. pose proof (wrun_repeat 0 k (at_end []) [t] t eq_refl) as H. rewrite H. destruct (solo k (at_end []) t) as [s' t']. reflexivity. }
  assert (forall schedule w pre, Forall (only is_write) (sh_threads w) -> sh_stream w = at_end pre ->
    exists pieces, List.length pieces = List.length schedule /\
    sh_stream (wrun w schedule) = at_end (pre ++ concat pieces) /\
    List.length (sh_threads (wrun w schedule)) = List.length (sh_threads w) /\
    forall i t, nth_error (sh_threads w) i = Some t ->
      exists t', nth_error (sh_threads (wrun w schedule)) i = Some t' /\
        solo (count_occ Nat.eq_dec schedule i) (at_end []) t = (at_end (own i schedule pieces), t')) as M.
  2:{ intros schedule w pre F E. destruct (M schedule w pre F E) as (pieces & L & A & Len & B). exists pieces. repeat (split; [assumption|]).
      intros i t Ht. destruct (B i t Ht) as (t' & Ht' & Hs). exists t'. split; [exact Ht'|].
      pose proof (Solo (count_occ Nat.eq_dec schedule i) t) as G. rewrite Hs in G. exact G. }
  induction schedule as [|j l IH]; intros w pre F E.
  - exists []. repeat split; [cbn; rewrite app_nil_r; exact E|]. intros i t Ht. exists t. split; [exact Ht|reflexivity].
  - cbn [wrun fold_left]. destruct (nth_error (sh_threads w) j) as [t|] eqn:Hj.
    + destruct (sstep_write t (proj1 (Forall_forall _ _) F t (nth_error_In _ _ Hj))) as (b & t' & Ho & Eb).
      assert (wstep w j = mkShared (at_end (pre ++ b)) (replace (sh_threads w) j t')) as W. { unfold wstep. rewrite Hj, E, Eb. reflexivity. }
      assert (List.length (replace (sh_threads w) j t') = List.length (sh_threads w)) as RL.
      { clear. revert j. generalize (sh_threads w) as ts. induction ts as [|x r IH]; intros [|j]; cbn; try reflexivity. f_equal. apply IH. }
      destruct (IH (wstep w j) (pre ++ b)) as (pieces & L & A & Len & B).
      { rewrite W. cbn [sh_threads]. clear -F Ho. revert j. induction F as [|x r Hx Hr IHr]; intros [|j]; cbn [replace]; constructor; auto. }
      { rewrite W. reflexivity. }
      exists (b :: pieces). split; [cbn; congruence|]. split; [cbn [concat]; rewrite app_assoc; exact A|].
      split; [unfold wrun in Len; rewrite Len, W; exact RL|]. intros i t0 Ht0.
      destruct (Nat.eq_dec j i) as [->|Hij].
      * assert (t0 = t) as -> by congruence. destruct (B i t') as (t2 & H2 & S2). { rewrite W. cbn [sh_threads]. eapply nth_replace, Hj. }
        exists t2. split; [exact H2|]. cbn [count_occ]. destruct (Nat.eq_dec i i) as [_|N]; [|congruence]. cbn [solo]. rewrite Eb. cbn [app].
        unfold own. cbn [combine filter fst]. rewrite Nat.eqb_refl. cbn [map snd concat]. fold (own i l pieces).
        clear -S2 Ho Eb. destruct (solo (count_occ Nat.eq_dec l i) (at_end b) t') as [s3 t3] eqn:S3.
        assert (exists q, s3 = at_end (b ++ q)) as [q ->].
        { clear S2 Eb. revert t' b Ho S3. generalize (count_occ Nat.eq_dec l i) as k. induction k as [|k IH]; intros t' b Ho S3; cbn [solo] in S3.
          - exists []. rewrite app_nil_r. congruence.
          - destruct (sstep_write t' Ho) as (b2 & t5 & Ho2 & E). rewrite E in S3. destruct (IH _ _ Ho2 S3) as [q ->]. exists (b2 ++ q). rewrite app_assoc. reflexivity. }
        pose proof (solo_write _ t' Ho b q _ _ S3 eq_refl) as S4. rewrite S4 in S2.
        assert (q = own i l pieces) as -> by (apply at_end_inj; congruence). assert (t3 = t2) as -> by congruence. reflexivity.
      * destruct (B i t0) as (t2 & H2 & S2). { rewrite W. cbn [sh_threads]. rewrite nth_replace_other by exact Hij. exact Ht0. }
        exists t2. split; [exact H2|]. cbn [count_occ]. destruct (Nat.eq_dec j i) as [N|_]; [congruence|].
        unfold own. cbn [combine filter fst]. rewrite (proj2 (Nat.eqb_neq j i) Hij). exact S2.
    + assert (wstep w j = w) as W. { unfold wstep. rewrite Hj. reflexivity. }
      rewrite W. destruct (IH w pre F E) as (pieces & L & A & Len & B). exists ([] :: pieces). split; [cbn; congruence|]. split; [exact A|]. split; [exact Len|].
      intros i t0 Ht0. assert (j <> i) as Hij by congruence. destruct (B i t0 Ht0) as (t2 & H2 & S2). exists t2. split; [exact H2|].
      cbn [count_occ]. destruct (Nat.eq_dec j i) as [N|_]; [congruence|]. unfold own. cbn [combine filter fst]. rewrite (proj2 (Nat.eqb_neq j i) Hij). exact S2.
Qed.
Print Assumptions C112_append.

(** ** what goes wrong without a lock *)
(** the first byte of the long forms and the width of what follows *)
Inductive long_form (v : Z) : byte -> nat -> Prop :=
| lf3 : 253 <= v <= 65535 -> long_form v xfd 2
| lf5 : 65536 <= v <= 4294967295 -> long_form v xfe 4
| lf9 : 4294967296 <= v < 2 ^ 64 -> long_form v xff 8.
Lemma long_form_ex v : 253 <= v < 2 ^ 64 -> exists p n, long_form v p n.
Proof.
  intros H. destruct (Z.leb_spec v 65535); [exists xfd, 2%nat; constructor; lia|].
  destruct (Z.leb_spec v 4294967295); [exists xfe, 4%nat; constructor; lia|]. exists xff, 8%nat. constructor. lia.
Qed.
Lemma long_form_varenc v p n : long_form v p n -> varenc LE v = p :: z2bytes LE n v.
Proof.
  unfold varenc. destruct 1 as [H|H|H]; replace (v <? 253) with false by lia.
  - replace (v <=? 65535) with true by lia. reflexivity.
  - replace (v <=? 65535) with false by lia. replace (v <=? 4294967295) with true by lia. reflexivity.
  - replace (v <=? 65535) with false by lia. replace (v <=? 4294967295) with false by lia. reflexivity.
Qed.
Lemma long_form_width v p n : long_form v p n -> pay_width p = n /\ (0 < n)%nat /\ 0 <= v < 256 ^ Z.of_nat n /\ Byte.eqb p x00 = false /\ Z.of_nat n <= 8.
Proof.
  destruct 1 as [H|H|H]; repeat split; try lia.
Qed.
Lemma le_cons x l : num LE (x :: l) = b2z x + 256 * num LE l.
Proof. rewrite !num_eq. reflexivity. Qed.
Lemma write_answers v p n : long_form v p n ->
  replay (CWrite (PVarInt (VInt v) LE)) [] = Blocked (QWrite [p]) /\
  replay (CWrite (PVarInt (VInt v) LE)) [AWrote (Ok 1)] = Blocked (QWrite (z2bytes LE n v)) /\
  replay (CWrite (PVarInt (VInt v) LE)) [AWrote (Ok 1); AWrote (Ok (Z.of_nat n))] = Finished (Ok RDone).
Proof.
  intros H. pose proof (long_form_width _ _ _ H) as (_ & Hn & Hb & _ & _).
  unfold replay. cbn [gcall gwrite]. unfold gWriteVarInt. cbn [as_int]. unfold gpack_int, struct_pack_int.
  destruct H as [H|H|H]; rewrite (fits_u _ v Hn Hb); replace (v <? 0) with false by lia; replace (v <? 253) with false by lia.
  - replace (v <=? 65535) with true by lia. repeat split; reflexivity.
  - replace (v <=? 65535) with false by lia. replace (v <=? 4294967295) with true by lia. repeat split; reflexivity.
  - replace (v <=? 65535) with false by lia. replace (v <=? 4294967295) with false by lia. repeat split; reflexivity.
Qed.
Lemma byte_answers z : 0 <= z <= 255 ->
  replay (CWrite (PInt U8 z LE)) [] = Blocked (QWrite [z2b z]) /\ replay (CWrite (PInt U8 z LE)) [AWrote (Ok 1)] = Finished (Ok RDone).
Proof.
  intros H. assert (struct_pack_int LE false 1 z = Ok [z2b z]) as E.
  { unfold struct_pack_int. rewrite (fits_u 1 z) by (try change (256 ^ Z.of_nat 1) with 256; lia). reflexivity. }
  unfold replay. cbn [gcall gwrite S_Stream.type_signed type_width]. unfold gpack_int. rewrite E. split; reflexivity.
Qed.

Lemma step_get prog results answers ts i s c n r s' : nth_error ts i = Some (mkSThread prog results answers) -> prog results = Some c ->
  replay c answers = Blocked (QRead n) -> bio_read n s = (r, s') ->
  wstep (mkShared s ts) i = mkShared s' (replace ts i (match replay c (answers ++ [AData r]) with Finished x => mkSThread prog (x :: results) [] | Blocked _ => mkSThread prog results (answers ++ [AData r]) end)).
Proof.
  intros H1 H2 H3 H4. unfold wstep. cbn [sh_threads sh_stream]. rewrite H1. unfold sstep. cbn [st_prog st_results st_answers].
  rewrite H2, H3, H4. reflexivity.
Qed.
Lemma step_put prog results answers ts i p c b : nth_error ts i = Some (mkSThread prog results answers) -> prog results = Some c ->
  replay c answers = Blocked (QWrite b) ->
  wstep (mkShared (at_end p) ts) i = mkShared (at_end (p ++ b)) (replace ts i (match replay c (answers ++ [AWrote (Ok (zlen b))]) with Finished x => mkSThread prog (x :: results) [] | Blocked _ => mkSThread prog results (answers ++ [AWrote (Ok (zlen b))]) end)).
Proof.
  intros H1 H2 H3. unfold wstep. cbn [sh_threads sh_stream]. rewrite H1. unfold sstep. cbn [st_prog st_results st_answers].
  rewrite H2, H3, bio_write_len. reflexivity.
Qed.

(** A byte written by another thread can fall between the length byte and the digits of a var-int of
    253 or more.  Both calls succeed, and no ReadVarInt gives the number back unless the foreign byte
    happens to be its first digit. *)
Theorem C112_torn_write : forall v z, 253 <= v < 2 ^ 64 -> 0 <= z <= 255 ->
  let w := wrun (mkShared (at_end []) [begin (straight [CWrite (PVarInt (VInt v) LE)]); begin (straight [CWrite (PInt U8 z LE)])]) [0; 1; 0]%nat in
  map st_results (sh_threads w) = [[Ok RDone]; [Ok RDone]] /\
  exists v', (forall max, v' <= max -> fst (ReadVarInt max (mkStream (content (sh_stream w)) 0)) = Ok v') /\
    (forall max, fst (ReadVarInt max (mkStream (content (sh_stream w)) 0)) = Ok v -> v' = v) /\
    v' mod 256 = z /\ (v' = v -> z = v mod 256).
Proof.
  intros v z Hv Hz. destruct (long_form_ex v Hv) as (p & n & Hp). pose proof (write_answers v p n Hp) as (A0 & A1 & A2).
  pose proof (byte_answers z Hz) as (B0 & B1). pose proof (long_form_width _ _ _ Hp) as (Hw & Hn & Hb & H0 & H8).
  cbn [wrun fold_left]. unfold begin. set (P0 := straight [CWrite (PVarInt (VInt v) LE)]). set (P1 := straight [CWrite (PInt U8 z LE)]).
  erewrite (step_put P0 [] [] _ 0 [] (CWrite (PVarInt (VInt v) LE)) [p]); [|reflexivity|reflexivity|exact A0]. cbn [app]. change (zlen [p]) with 1. rewrite A1. cbn [replace].
  erewrite (step_put P1 [] [] _ 1 [p] (CWrite (PInt U8 z LE)) [z2b z]); [|reflexivity|reflexivity|exact B0]. cbn [app]. change (zlen [z2b z]) with 1. rewrite B1. cbn [replace].
  erewrite (step_put P0 [] [AWrote (Ok 1)] _ 0 [p; z2b z] (CWrite (PVarInt (VInt v) LE)) (z2bytes LE n v)); [|reflexivity|reflexivity|exact A1]. cbn [app].
  assert (zlen (z2bytes LE n v) = Z.of_nat n) as -> by (unfold zlen; rewrite z2bytes_length; reflexivity). rewrite A2. cbn [replace].
  split; [reflexivity|]. cbn [sh_stream]. unfold at_end. cbn [content].
  set (d := z2bytes LE n v). assert (List.length d = n) as Hd by apply z2bytes_length.
  assert (forall max, fst (ReadVarInt max (mkStream (p :: z2b z :: d) 0)) = if max <? num LE (firstn n (z2b z :: d)) then Raise PlainException else Ok (num LE (firstn n (z2b z :: d)))) as R.
  { intros max. rewrite (ReadVarInt_cons max (mkStream (p :: z2b z :: d) 0) p (z2b z :: d) eq_refl). rewrite H0, Hw. cbn [List.length]. rewrite Hd.
    replace (S n <? n)%nat with false by lia. cbn [fst]. unfold pay_value. rewrite Hw. destruct n; [lia|]. reflexivity. }
  exists (num LE (firstn n (z2b z :: d))). split; [|split; [|split]].
  - intros max Hm. rewrite R. replace (max <? num LE (firstn n (z2b z :: d))) with false by lia. reflexivity.
  - intros max Hm. rewrite R in Hm. destruct (max <? _); [discriminate|]. congruence.
  - destruct n as [|m]; [lia|]. cbn [firstn]. rewrite le_cons, z2b_small by lia. rewrite Z.mul_comm, Z.mod_add by lia. apply Z.mod_small. lia.
  - intros E. destruct n as [|m]; [lia|]. cbn [firstn] in E. rewrite le_cons, z2b_small in E by lia. rewrite <- E. rewrite Z.mul_comm, Z.mod_add by lia. symmetry. apply Z.mod_small. lia.
Qed.
Print Assumptions C112_torn_write.

Lemma read_answers v p n max : long_form v p n ->
  replay (CRead (GVarInt max)) [] = Blocked (QRead 1) /\
  replay (CRead (GVarInt max)) [AData (Ok [p])] = Blocked (QRead (Z.of_nat n)) /\
  (forall d, List.length d = n -> num LE d <= max -> replay (CRead (GVarInt max)) [AData (Ok [p]); AData (Ok d)] = Finished (Ok (RVal (VZ (num LE d))))).
Proof.
  intros Hp. repeat split.
  - destruct Hp; reflexivity.
  - intros d Hd Hm. pose proof (long_form_width _ _ _ Hp) as (_ & Hn & _ & _ & H8).
    assert (struct_unpack_int LE false n d = Ok (num LE d)) as E.
    { unfold struct_unpack_int, zlen. rewrite Hd, Z.eqb_refl. unfold int_from_bytes. cbn [andb]. rewrite num_eq. reflexivity. }
    assert (replay (CRead (GVarInt max)) [AData (Ok [p]); AData (Ok d)] =
      match gmap RVal (gmap VZ (gbind (glift (struct_unpack_int LE false n d)) (fun value => if value >? max then graise PlainException else gret value))) ([] : list answer, None : option request) with
      | (r, (_, None)) => Finished r | (_, (_, Some q)) => Blocked q end) as ->.
    { destruct Hp; reflexivity. }
    rewrite E. unfold gmap, gbind, glift. replace (num LE d >? max) with false by lia. reflexivity.
Qed.
(** A ReadByte of another thread can fall into the middle of a ReadVarInt: on a stream holding the
    var-int v and then the byte x, the threads get v/256 + x*256^(n-1) and v mod 256 (n digits). *)
Theorem C112_torn_read : forall v x max enc rest, varint LE v enc -> 253 <= v -> v <= max ->
  let n := Z.of_nat (List.length enc - 1) in
  v / 256 + b2z x * 256 ^ (n - 1) <= max ->
  let w := wrun (mkShared (mkStream (enc ++ x :: rest) 0) [begin (straight [CRead (GVarInt max)]); begin (straight [CRead GByte])]) [0; 1; 0]%nat in
  (exists s', ReadVarInt max (mkStream (enc ++ x :: rest) 0) = (Ok v, s') /\ fst (ReadByte s') = Ok (b2z x)) /\
  map st_results (sh_threads w) = [[Ok (RVal (VZ (v / 256 + b2z x * 256 ^ (n - 1))))]; [Ok (RVal (VZ (v mod 256)))]].
Proof.
  intros v x max enc rest Hv H253 Hmax n Hmax2 w. pose proof (varint_range _ _ _ Hv) as Hr.
  destruct (long_form_ex v ltac:(lia)) as (p & k & Hp). pose proof (long_form_width _ _ _ Hp) as (Hw & Hk & Hb & H0 & H8).
  split.
  - exists (advance (List.length enc) (mkStream (enc ++ x :: rest) 0)).
    rewrite (ReadVarInt_enc max v enc (mkStream (enc ++ x :: rest) 0) (x :: rest) Hv) by reflexivity.
    replace ((v =? 0) || (v <=? max)) with true by lia. split; [reflexivity|].
    rewrite (ReadByte_cons _ x rest); [reflexivity|]. apply remaining_advance_app. reflexivity.
  - pose proof (varint_varenc _ _ _ Hv) as ->. rewrite (long_form_varenc _ _ _ Hp) in *. clear Hv.
    pose proof (read_answers v p k max Hp) as (A0 & A1 & A2).
    assert (n = Z.of_nat k) as En. { unfold n. rewrite ?(long_form_varenc _ _ _ Hp). cbn [List.length]. rewrite z2bytes_length. lia. } clearbody n. subst n.
    destruct k as [|k]; [lia|]. assert (exists d, z2bytes LE (S k) v = z2b v :: d /\ List.length d = k /\ num LE d = v / 256) as (d & Ed & Ld & Nd).
    { exists (z2le k (v / 256)). split; [|split; [apply z2le_length|]].
      - unfold z2bytes. reflexivity.
      - rewrite num_eq. unfold bytes2z. cbn [order_bytes]. rewrite le2z_z2le. apply Z.mod_small. rewrite pow256_S in Hb.
        split; [apply Z.div_pos; lia|apply Z.div_lt_upper_bound; lia]. }
    unfold w. rewrite ?(long_form_varenc _ _ _ Hp), Ed. clear w. cbn [app].
    assert (forall c q r m ts, remaining (mkStream c q) = r -> (Z.to_nat m <= List.length r)%nat -> 0 <= m <= 8 ->
       bio_read m (mkStream c q) = (Ok (firstn (Z.to_nat m) r), mkStream c (q + Z.to_nat m)) /\ ts = ts :> list sthread) as B.
    { intros c q r m ts Hrem Hm Hm8. split; [|reflexivity]. rewrite bio_read_spec by (unfold maxsize; lia). rewrite Hrem.
      unfold advance. cbn [content position]. rewrite firstn_length_le by exact Hm. reflexivity. }
    set (c := p :: z2b v :: d ++ x :: rest). cbn [wrun fold_left].
    unfold begin. set (P0 := straight [CRead (GVarInt max)]). set (P1 := straight [CRead GByte]).
    erewrite (step_get P0 [] [] _ 0 (mkStream c 0) (CRead (GVarInt max)) 1 _ _); [|reflexivity|reflexivity|first [exact A0|reflexivity]|apply (proj1 (B c 0%nat c 1 [] eq_refl ltac:(cbn; lia) ltac:(lia)))].
    change (firstn (Z.to_nat 1) c) with [p]. cbn [app]. rewrite A1. cbn [replace].
    erewrite (step_get P1 [] [] _ 1 _ (CRead GByte) 1 _ _); [|reflexivity|reflexivity|reflexivity|apply (proj1 (B c (0 + Z.to_nat 1)%nat (z2b v :: d ++ x :: rest) 1 [] eq_refl ltac:(cbn; lia) ltac:(lia)))].
    change (firstn (Z.to_nat 1) (z2b v :: d ++ x :: rest)) with [z2b v]. cbn [app].
    change (replay (CRead GByte) [AData (Ok [z2b v])]) with (Finished (Ok (RVal (VZ (b2z (z2b v)))))). cbn [replace].
    erewrite (step_get P0 [] [AData (Ok [p])] _ 0 _ (CRead (GVarInt max)) (Z.of_nat (S k)) _ _); [|reflexivity|reflexivity|first [exact A1|reflexivity]|apply (proj1 (B c (0 + Z.to_nat 1 + Z.to_nat 1)%nat (d ++ x :: rest) (Z.of_nat (S k)) [] eq_refl ltac:(rewrite app_length; cbn [List.length]; lia) ltac:(lia)))].
    assert (firstn (Z.to_nat (Z.of_nat (S k))) (d ++ x :: rest) = d ++ [x]) as ->.
    { rewrite Nat2Z.id. replace (d ++ x :: rest) with ((d ++ [x]) ++ rest) by (rewrite <- app_assoc; reflexivity).
      replace (S k) with (List.length (d ++ [x])) by (rewrite app_length; cbn; lia). apply firstn_app_exact. }
    assert (num LE (d ++ [x]) = v / 256 + b2z x * 256 ^ (Z.of_nat (S k) - 1)) as N.
    { rewrite num_eq. unfold bytes2z. cbn [order_bytes]. rewrite le2z_app. rewrite num_eq in Nd. unfold bytes2z in Nd. cbn [order_bytes] in Nd. rewrite Nd.
      unfold zlen. rewrite Ld. replace (Z.of_nat (S k) - 1) with (Z.of_nat k) by lia. cbn [le2z]. ring. }
    cbn [app replace]. rewrite (A2 (d ++ [x])); [|rewrite app_length; cbn; lia|].
    + cbn [map st_results sh_threads]. rewrite N, b2z_z2b. reflexivity.
    + rewrite N. exact Hmax2.
Qed.
Print Assumptions C112_torn_read.

(** a non-trivial case: three threads sharing a stream *)
Example C112_example_atomic : let t0 := begin (straight [CWrite (PInt U32 7 LE); CRead (GInt U16 LE)]) in
  let t1 := begin (fun results => match results with [] => Some (CRead GByte) | [Ok (RVal (VZ 9))] => Some (CWrite (PBool (VInt 1))) | _ => None end) in
  Forall (fun t => idle t /\ only one_use t) [t0; t1].
Proof.
  repeat apply Forall_cons; try apply Forall_nil; (split; [reflexivity|]).
  - intros l c H. unfold begin, straight in H. cbn [st_prog] in H. destruct (List.length l) as [|[|[|]]]; cbn in H; inversion H; exact I.
  - intros l c H. unfold begin in H. cbn [st_prog] in H.
    destruct l as [|r [|r2 l]]; [inversion H; exact I| |destruct r as [[[z| | | | | | |]|]|]; try discriminate; repeat (discriminate || (destruct z as [|z|z]; try discriminate) || destruct z as [z|z|])].
    repeat (discriminate || (inversion H; exact I) || match type of H with context [match ?x with _ => _ end] => is_var x; destruct x end).
Qed.
Example C112_example_append :
  let w := wrun (mkShared (at_end [x01]) [begin (straight [CWrite (PVarInt (VInt 300) LE)]); begin (straight [CWrite (PVarString (VStr [104; 105]))])]) [0; 1; 1; 0]%nat in
  sh_stream w = at_end [x01; xfd; x02; x68; x69; x2c; x01] /\ map st_results (sh_threads w) = [[Ok RDone]; [Ok RDone]].
Proof. split; reflexivity. Qed.
