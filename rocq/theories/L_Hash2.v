(** * L_Hash2: the SHA-256 and RIPEMD-160 of M_Hash.v meet S_Hash.v *)
From Coq Require Import Lia ZifyNat Arith Znumtheory.
From Verif Require Import M_Py M_Hash S_IO S_Hash L_Hash.
Open Scope Z_scope.

(** ** SHA-256: the rounds *)
Definition list8 (s : st8) : list Z := let '(a, b, c, d, e, f, g, h) := s in [a; b; c; d; e; f; g; h].
Definition wd8 (s : st8) : Prop := Forall wd (list8 s).
Lemma round_ok s k w : wd8 s -> sha_round k w (fun j => nth j (list8 s) 0) (fun j => nth j (list8 (sha256_round s (k, w))) 0) /\ wd8 (sha256_round s (k, w)).
Proof.
  destruct s as [[[[[[[a b] c] d] e] f] g] h]. unfold wd8. cbn [list8]. intros D.
  assert (A : wd a /\ wd b /\ wd c /\ wd d /\ wd e /\ wd f /\ wd g /\ wd h) by (repeat (apply Forall_cons_iff in D as [? D]); auto 10). clear D. destruct A as (Da & Db & Dc & Dd & De & Df & Dg & Dh).
  unfold sha256_round. change 2 with (Z.of_nat 2). change 6 with (Z.of_nat 6). change 11 with (Z.of_nat 11). change 13 with (Z.of_nat 13). change 22 with (Z.of_nat 22). change 25 with (Z.of_nat 25).
  rewrite !big_sigma, ch_eq, maj_eq by (lia || assumption). cbn [fst snd]. rewrite add5. split.
  - cbv beta. unfold sha_round. cbn [list8 nth]. fold (Sum1 e). fold (Sum0 a). repeat split; rewrite ?add2; try reflexivity.
  - cbn [list8]. repeat apply Forall_cons; try apply Forall_nil; first [assumption | apply add32_wd].
Qed.
Definition after (l : list (Z * Z)) (s : st8) (t : nat) : st8 := fold_left sha256_round (firstn t l) s.
Lemma after_wd l s t : wd8 s -> wd8 (after l s t).
Proof.
  unfold after. generalize (firstn t l). intros k. revert s. induction k as [|[x y] k IH]; intros s D; [exact D|]. cbn [fold_left]. apply IH. apply (round_ok s x y D).
Qed.
Lemma list8_nth s j : (j < 8)%nat -> forall P : Z -> Prop, Forall P (list8 s) -> P (nth j (list8 s) 0).
Proof. intros J P F. apply (proj1 (Forall_forall P _) F). apply nth_In. destruct s as [[[[[[[a b] c] d] e] f] g] h]. exact J. Qed.
Definition sha_after (w : list Z) (s : st8) (t j : nat) : Z := nth j (list8 (after (combine K256 (the_schedule w)) s t)) 0.
Lemma sha_block_ok X w s : length w = 16%nat -> (forall t, (t < 16)%nat -> nth t w 0 = X t /\ wd (X t)) -> wd8 s ->
  forall s', (let '(a, b, c, d, e, f, g, h) := fold_left sha256_round (combine K256 (the_schedule w)) s in
  let '(a0, b0, c0, d0, e0, f0, g0, h0) := s in
  (add32 a a0, add32 b b0, add32 c c0, add32 d d0, add32 e e0, add32 f f0, add32 g g0, add32 h h0)) = s' ->
  sha_compression X (fun j => nth j (list8 s) 0) (fun j => nth j (list8 s') 0) /\ wd8 s'.
Proof.
  intros L W D s' E. destruct (the_schedule_spec w L) as (LL & _). assert (LC : length (combine K256 (the_schedule w)) = 64%nat) by (rewrite combine_length, LL; reflexivity).
  assert (E64 : fold_left sha256_round (combine K256 (the_schedule w)) s = after (combine K256 (the_schedule w)) s 64) by (unfold after; rewrite fold_firstn_all by exact LC; reflexivity).
  split.
  - exists (fun t => nth t K256 0), (fun t => nth t (the_schedule w) 0), (sha_after w s). split; [exact K256_ok|]. split; [apply schedule_is; assumption|]. split; [reflexivity|]. split.
    + intros t T. assert (R : after (combine K256 (the_schedule w)) s (S t) = sha256_round (after (combine K256 (the_schedule w)) s t) (nth t K256 0, nth t (the_schedule w) 0)).
      { unfold after. rewrite (fold_firstn _ _ _ _ (0, 0)) by (rewrite LC; exact T). rewrite combine_nth by (rewrite LL; reflexivity). reflexivity. }
      unfold sha_after. rewrite R. apply round_ok. apply after_wd, D.
    + intros j J. unfold sha_after. rewrite E64 in E. clear E64. destruct (after _ s 64) as [[[[[[[a b] c] d] e] f] g] h]. destruct s as [[[[[[[a0 b0] c0] d0] e0] f0] g0] h0]. subst s'.
      cbn [list8]. do 8 (destruct j as [|j]; [cbn [nth]; rewrite add2; unfold sum32; cbn [fold_right]; f_equal; ring|]). lia.
  - rewrite E64 in E. destruct (after _ s 64) as [[[[[[[a b] c] d] e] f] g] h]. destruct s as [[[[[[[a0 b0] c0] d0] e0] f0] g0] h0]. subst s'.
    unfold wd8. cbn [list8]. repeat apply Forall_cons; try apply Forall_nil; apply add32_wd.
Qed.
Definition states {A} (f : A -> bytes -> A) (s : A) (p : bytes) (i : nat) : A := fold_left f (firstn i (blocks64 p)) s.
Lemma blocks64_length (p : bytes) n : length p = (64 * n)%nat -> length (blocks64 p) = n.
Proof. intros L. apply blocks_length; [lia|exact L|lia]. Qed.
Lemma states_S {A} (f : A -> bytes -> A) s (p : bytes) n i : length p = (64 * n)%nat -> (i < n)%nat -> states f s p (S i) = f (states f s p i) (firstn 64 (skipn (64 * i) p)).
Proof. intros L I. unfold states. etransitivity; [apply (fold_firstn f (blocks64 p) s i []); pose proof (blocks64_length p n L) as Q; unfold bytes in *; lia|]. rewrite <- (nth_block p n i L I). reflexivity. Qed.
Lemma states_all {A} (f : A -> bytes -> A) s (p : bytes) n : length p = (64 * n)%nat -> states f s p n = fold_left f (blocks64 p) s.
Proof. intros L. apply fold_firstn_all, blocks64_length, L. Qed.
Lemma block64_length (p : bytes) n i : length p = (64 * n)%nat -> (i < n)%nat -> length (firstn 64 (skipn (64 * i) p)) = 64%nat.
Proof. intros L I. rewrite firstn_length, skipn_length, L. lia. Qed.
Theorem sha256_is m : is_sha256 m (real_sha256 m).
Proof.
  pose proof (pad_ok BE m) as P. destruct P as (z & l & _ & _ & _ & _ & n & L). set (p := md_pad BE m) in *.
  set (S0 := states sha256_block sha256_init p).
  assert (D : forall i, (i <= n)%nat -> wd8 (S0 i) /\ forall k, (k < i)%nat -> sha_compression (block_word BE p k) (fun j => nth j (list8 (S0 k)) 0) (fun j => nth j (list8 (S0 (S k))) 0)).
  { induction i as [|i IH]; intros I.
    - split; [|lia]. unfold wd8. repeat apply Forall_cons; try apply Forall_nil; split; reflexivity || discriminate.
    - destruct (IH ltac:(lia)) as [W C]. pose proof (states_S sha256_block sha256_init p n i L ltac:(lia)) as E. fold S0 in E. symmetry in E. unfold sha256_block in E at 1.
      apply (sha_block_ok (block_word BE p i)) in E; [|apply words_length, (block64_length p n); lia| |exact W].
      + destruct E as [E W']. split; [exact W'|]. intros k K. destruct (Nat.eq_dec k i) as [->|]; [exact E|apply C; lia].
      + intros t T. split; [apply (words_nth BE p n); lia|apply (block_word_wd BE p n); lia]. }
  destruct (D n (Nat.le_refl n)) as [W C]. exists p, n, (fun i j => nth j (list8 (S0 i)) 0). split; [apply pad_ok|]. split; [exact L|]. split; [exact init_ok|]. split; [exact C|].
  unfold real_sha256. fold p. rewrite <- (states_all sha256_block sha256_init p n L). fold S0. cbv beta. unfold wd8 in W. destruct (S0 n) as [[[[[[[a b] c] d] e] f] g] h]. exact (digest_of BE [a; b; c; d; e; f; g; h] W).
Qed.
(** the specification leaves no choice *)
Lemma schedule_unique X Y W V : (forall t, (t < 16)%nat -> X t = Y t) -> sha_schedule X W -> sha_schedule Y V -> forall t, (t < 64)%nat -> W t = V t.
Proof.
  intros E [A B] [C D]. assert (G : forall n t, (t < n)%nat -> (t < 64)%nat -> W t = V t); [|intros t T; apply (G (S t)); lia].
  induction n as [|n IH]; intros t T T'; [lia|]. destruct (Nat.lt_ge_cases t 16) as [H|H]; [rewrite A, C by exact H; apply E, H|].
  rewrite B, D by lia. rewrite !IH by lia. reflexivity.
Qed.
Lemma less8 (P : nat -> Prop) : P 0%nat -> P 1%nat -> P 2%nat -> P 3%nat -> P 4%nat -> P 5%nat -> P 6%nat -> P 7%nat -> forall j, (j < 8)%nat -> P j.
Proof. intros. do 8 (destruct j as [|j]; [assumption|]). lia. Qed.
Lemma less5 (P : nat -> Prop) : P 0%nat -> P 1%nat -> P 2%nat -> P 3%nat -> P 4%nat -> forall j, (j < 5)%nat -> P j.
Proof. intros. do 5 (destruct j as [|j]; [assumption|]). lia. Qed.
Lemma sha_round_unique k w v u v' u' : (forall j, (j < 8)%nat -> v j = u j) -> sha_round k w v v' -> sha_round k w u u' -> forall j, (j < 8)%nat -> v' j = u' j.
Proof.
  intros E (A7 & A6 & A5 & A4 & A3 & A2 & A1 & A0) (B7 & B6 & B5 & B4 & B3 & B2 & B1 & B0).
  apply less8; rewrite ?A7, ?A6, ?A5, ?A4, ?A3, ?A2, ?A1, ?A0, ?B7, ?B6, ?B5, ?B4, ?B3, ?B2, ?B1, ?B0, ?E by lia; reflexivity.
Qed.
Lemma sha_compression_unique X Y h g h' g' : (forall t, (t < 16)%nat -> X t = Y t) -> (forall j, (j < 8)%nat -> h j = g j) -> sha_compression X h h' -> sha_compression Y g g' -> forall j, (j < 8)%nat -> h' j = g' j.
Proof.
  intros EX EH (K & W & v & A1 & A2 & A3 & A4 & A5) (K' & W' & v' & B1 & B2 & B3 & B4 & B5).
  assert (G : forall t, (t <= 64)%nat -> forall j, (j < 8)%nat -> v t j = v' t j).
  { induction t as [|t IH]; intros T j J; [rewrite A3, B3 by exact J; apply EH, J|].
    apply (sha_round_unique (K t) (W t) (v t) (v' t)); [intros i I; apply IH; lia|apply A4; lia| |exact J].
    rewrite (sha_constant_unique 3 t (K t) (K' t)), (schedule_unique X Y W W') by first [lia | assumption | apply A1; lia | apply B1; lia]. apply B4. lia. }
  intros j J. rewrite A5, B5, EH, G by lia. reflexivity.
Qed.
Lemma same_blocks (p : bytes) n n' : length p = (64 * n)%nat -> length p = (64 * n')%nat -> n = n'.
Proof. lia. Qed.
Theorem sha256_unique m d d' : is_sha256 m d -> is_sha256 m d' -> d = d'.
Proof.
  intros (p & n & h & P & L & I & C & D) (p' & n' & h' & P' & L' & I' & C' & D').
  pose proof (pad_unique BE m p p' P P') as E. subst p'. assert (n' = n) as -> by (apply (same_blocks p); assumption).
  assert (G : forall i, (i <= n)%nat -> forall j, (j < 8)%nat -> h i j = h' i j).
  { induction i as [|i IH]; intros T j J; [apply (sha_constant_unique 2 j); [lia|apply I, J|apply I', J]|].
    apply (sha_compression_unique (block_word BE p i) (block_word BE p i) (h i) (h' i)); [reflexivity|intros k K; apply IH; lia|apply C; lia|apply C'; lia|exact J]. }
  apply (digest_unique BE 8 (h n)); [exact D|]. destruct D' as [D1 D2]. split; [exact D1|]. intros j J. rewrite D2 by exact J. symmetry. apply G; lia.
Qed.

(** ** RIPEMD-160 *)
Definition list5 (s : st5) : list Z := let '(a, b, c, d, e) := s in [a; b; c; d; e].
Definition wd5 (s : st5) : Prop := Forall wd (list5 s).
Definition one_step (ff : nat -> nat) (K w : list Z) (s : st5) (x : nat * (nat * Z)) : st5 := rmd_step (rmd_f (ff (fst x))) (nth (fst x) K 0) w s (snd x).
Definition flat (rr : list (list nat)) (ss : list (list Z)) : list (nat * (nat * Z)) := flat_map (fun j => map (pair j) (combine (nth j rr []) (nth j ss []))) [0; 1; 2; 3; 4]%nat.
Lemma fold_flat ff K rr ss w l : forall s, fold_left (fun s j => fold_left (rmd_step (rmd_f (ff j)) (nth j K 0) w) (combine (nth j rr []) (nth j ss [])) s) l s =
  fold_left (one_step ff K w) (flat_map (fun j => map (pair j) (combine (nth j rr []) (nth j ss []))) l) s.
Proof.
  induction l as [|j l IH]; intros s; [reflexivity|]. cbn [fold_left flat_map]. rewrite IH, fold_left_app. f_equal.
  generalize (combine (nth j rr []) (nth j ss [])). intros k. revert s. induction k as [|x k IHk]; intros s; [reflexivity|]. cbn [fold_left map]. apply IHk.
Qed.
Definition plan (right : bool) (t : nat) : nat * (nat * Z) := let i := rmd_index right t in ((t / 16)%nat, (i, Z.of_nat (rmd_shift (t / 16) i))).
Definition tables (right : bool) := if right then flat rmd_r' rmd_s' else flat rmd_r rmd_s.
Definition order (right : bool) (j : nat) : nat := if right then (4 - j)%nat else j.
Definition consts (right : bool) : list Z := if right then rmd_K' else rmd_K.
Lemma tables_ok right : tables right = map (plan right) (seq 0 80).
Proof. destruct right; vm_compute; reflexivity. Qed.
Lemma tables_nth right t : (t < 80)%nat -> nth t (tables right) (0%nat, (0%nat, 0)) = plan right t.
Proof. intros T. rewrite tables_ok, (nth_indep _ _ (plan right 0)) by (rewrite map_length, seq_length; exact T). rewrite map_nth, seq_nth by exact T. reflexivity. Qed.
Lemma tables_length right : length (tables right) = 80%nat.
Proof. rewrite tables_ok, map_length, seq_length. reflexivity. Qed.
Lemma below80 (f : nat -> bool) : forallb f (seq 0 80) = true -> forall t, (t < 80)%nat -> f t = true.
Proof. intros C t T. apply (proj1 (forallb_forall _ _) C t). apply in_seq. lia. Qed.
Lemma index_lt right t : (t < 80)%nat -> (rmd_index right t < 16)%nat.
Proof. intros T. apply Nat.ltb_lt. destruct right; revert t T; apply below80; vm_compute; reflexivity. Qed.
Lemma shift_lt right t : (t < 80)%nat -> (0 < rmd_shift (t / 16) (rmd_index right t) < 32)%nat.
Proof.
  intros T. assert (C : (0 <? rmd_shift (t / 16) (rmd_index right t))%nat && (rmd_shift (t / 16) (rmd_index right t) <? 32)%nat = true) by (destruct right; revert t T; apply below80; vm_compute; reflexivity).
  apply andb_prop in C as [A B]. apply Nat.ltb_lt in A, B. lia.
Qed.
Lemma const_ok right t : (t < 80)%nat -> rmd_constant right (t / 16) (nth (t / 16) (consts right) 0).
Proof.
  intros T. assert (Q : (t / 16 < 5)%nat) by (apply Nat.div_lt_upper_bound; lia). revert Q. generalize (t / 16)%nat. intros r R.
  destruct right; do 5 (destruct r as [|r]; [first [reflexivity | vm_compute; repeat split; congruence]|]); lia.
Qed.
Lemma step_ok right w X s t : (forall i, (i < 16)%nat -> nth i w 0 = X i /\ wd (X i)) -> (t < 80)%nat -> wd5 s ->
  rmd_step_is right X t (fun j => nth j (list5 s) 0) (fun j => nth j (list5 (one_step (order right) (consts right) w s (plan right t))) 0) /\ wd5 (one_step (order right) (consts right) w s (plan right t)).
Proof.
  destruct s as [[[[a b] c] d] e]. unfold wd5. cbn [list5]. intros W T D.
  assert (A : wd a /\ wd b /\ wd c /\ wd d /\ wd e) by (repeat (apply Forall_cons_iff in D as [? D]); auto 10). clear D. destruct A as (Da & Db & Dc & Dd & De).
  unfold one_step, plan. cbn [fst snd]. unfold rmd_step. cbn [fst snd]. rewrite rotl_eq by (apply add32_wd || apply shift_lt, T). change 10 with (Z.of_nat 10). rewrite (rotl_eq 10) by (lia || assumption).
  rewrite rmd_f_eq by assumption. destruct (W (rmd_index right t) (index_lt right t T)) as [-> WX]. split.
  - exists (nth (t / 16) (consts right) 0). split; [apply const_ok, T|]. cbn [nth list5]. rewrite add2, add4. split; [destruct right; reflexivity|]. auto.
  - cbn [list5]. repeat apply Forall_cons; try apply Forall_nil; first [assumption | apply add32_wd | apply turn_left_wd].
Qed.
Definition line_after (right : bool) (w : list Z) (s : st5) (t : nat) : st5 := fold_left (one_step (order right) (consts right) w) (firstn t (tables right)) s.
Lemma line_ok right w X s : (forall i, (i < 16)%nat -> nth i w 0 = X i /\ wd (X i)) -> wd5 s ->
  rmd_line_is right X (fun j => nth j (list5 s) 0) (fun j => nth j (list5 (line_after right w s 80)) 0).
Proof.
  intros W D. assert (R : forall t, (t < 80)%nat -> line_after right w s (S t) = one_step (order right) (consts right) w (line_after right w s t) (plan right t)).
  { intros t T. unfold line_after. rewrite (fold_firstn _ _ _ _ (0%nat, (0%nat, 0))) by (rewrite tables_length; exact T). rewrite tables_nth by exact T. reflexivity. }
  assert (V : forall t, (t <= 80)%nat -> wd5 (line_after right w s t)).
  { induction t as [|t IH]; intros T; [exact D|]. rewrite R by lia. apply (step_ok right w X); [exact W|lia|apply IH; lia]. }
  exists (fun t j => nth j (list5 (line_after right w s t)) 0). split; [reflexivity|]. split; [|reflexivity]. intros t T. rewrite R by exact T. apply step_ok; [exact W|exact T|apply V; lia].
Qed.
Lemma left_line w s : rmd_line (fun j => j) rmd_K rmd_r rmd_s w s = line_after false w s 80.
Proof. unfold line_after. rewrite (fold_firstn_all _ _ _ _ (tables_length false)). unfold rmd_line. exact (fold_flat (order false) rmd_K rmd_r rmd_s w [0; 1; 2; 3; 4]%nat s). Qed.
Lemma right_line w s : rmd_line (fun j => (4 - j)%nat) rmd_K' rmd_r' rmd_s' w s = line_after true w s 80.
Proof. unfold line_after. rewrite (fold_firstn_all _ _ _ _ (tables_length true)). unfold rmd_line. exact (fold_flat (order true) rmd_K' rmd_r' rmd_s' w [0; 1; 2; 3; 4]%nat s). Qed.
Lemma rmd_block_ok X blk s : (forall t, (t < 16)%nat -> nth t (words LE blk) 0 = X t /\ wd (X t)) -> wd5 s ->
  rmd_compression X (fun j => nth j (list5 s) 0) (fun j => nth j (list5 (rmd_block s blk)) 0) /\ wd5 (rmd_block s blk).
Proof.
  intros W D. pose proof (line_ok false _ X s W D) as HL. pose proof (line_ok true _ X s W D) as HR.
  unfold rmd_block. rewrite left_line, right_line.
  destruct (line_after false _ s 80) as [[[[a b] c] d] e]. destruct (line_after true _ s 80) as [[[[a' b'] c'] d'] e']. destruct s as [[[[h0 h1] h2] h3] h4]. split.
  - exists (fun j => nth j [a; b; c; d; e] 0), (fun j => nth j [a'; b'; c'; d'; e'] 0). split; [exact HL|]. split; [exact HR|]. cbn [list5 nth]. rewrite !add3. auto.
  - unfold wd5. cbn [list5]. repeat apply Forall_cons; try apply Forall_nil; apply add32_wd.
Qed.
Definition rmd_init : st5 := (0x67452301, 0xefcdab89, 0x98badcfe, 0x10325476, 0xc3d2e1f0).
Lemma rmd_init_ok : digest_words LE 5 (fun j => nth j (list5 rmd_init) 0) rmd_initial.
Proof. split; [reflexivity|]. apply less5; vm_compute; reflexivity. Qed.
Theorem ripemd160_is m : is_ripemd160 m (real_ripemd160 m).
Proof.
  pose proof (pad_ok LE m) as P. destruct P as (z & l & _ & _ & _ & _ & n & L). set (p := md_pad LE m) in *.
  set (S0 := states rmd_block rmd_init p).
  assert (D : forall i, (i <= n)%nat -> wd5 (S0 i) /\ forall k, (k < i)%nat -> rmd_compression (block_word LE p k) (fun j => nth j (list5 (S0 k)) 0) (fun j => nth j (list5 (S0 (S k))) 0)).
  { induction i as [|i IH]; intros I.
    - split; [|lia]. unfold wd5. repeat apply Forall_cons; try apply Forall_nil; split; reflexivity || discriminate.
    - destruct (IH ltac:(lia)) as [W C]. pose proof (states_S rmd_block rmd_init p n i L ltac:(lia)) as E. fold S0 in E.
      destruct (rmd_block_ok (block_word LE p i) (firstn 64 (skipn (64 * i) p)) (S0 i)) as [E1 W']; [|exact W|].
      + intros t T. split; [apply (words_nth LE p n); lia|apply (block_word_wd LE p n); lia].
      + rewrite <- E in E1, W'. split; [exact W'|]. intros k K. destruct (Nat.eq_dec k i) as [->|]; [exact E1|apply C; lia]. }
  destruct (D n (Nat.le_refl n)) as [W C]. exists p, n, (fun i j => nth j (list5 (S0 i)) 0). split; [apply pad_ok|]. split; [exact L|]. split; [exact rmd_init_ok|]. split; [exact C|].
  unfold real_ripemd160. fold p. fold rmd_init. rewrite <- (states_all rmd_block rmd_init p n L). fold S0. cbv beta. unfold wd5 in W. destruct (S0 n) as [[[[a b] c] d] e]. exact (digest_of LE [a; b; c; d; e] W).
Qed.
Lemma scaled_unique k p c d : 0 < k -> scaled_root k p c -> scaled_root k p d -> c = d.
Proof. intros K [C0 C] [D0 D]. exact (root_unique k _ c d K C0 D0 C D). Qed.
Lemma rmd_constant_unique right r c d : rmd_constant right r c -> rmd_constant right r d -> c = d.
Proof. destruct right; do 5 (destruct r as [|r]; [cbn [rmd_constant]; first [apply scaled_unique; reflexivity | congruence]|]); cbn [rmd_constant]; first [apply scaled_unique; reflexivity | congruence]. Qed.
Lemma rmd_line_unique right X h g out out' : (forall j, (j < 5)%nat -> h j = g j) -> rmd_line_is right X h out -> rmd_line_is right X g out' -> forall j, (j < 5)%nat -> out j = out' j.
Proof.
  intros E (v & A1 & A2 & A3) (u & B1 & B2 & B3).
  assert (G : forall t, (t <= 80)%nat -> forall j, (j < 5)%nat -> v t j = u t j).
  { induction t as [|t IH]; intros T j J; [rewrite A1, B1 by exact J; apply E, J|].
    destruct (A2 t ltac:(lia)) as (k & K & P1 & P0 & P4 & P3 & P2). destruct (B2 t ltac:(lia)) as (k' & K' & Q1 & Q0 & Q4 & Q3 & Q2).
    rewrite (rmd_constant_unique right (t / 16) k k' K K') in P1. specialize (IH ltac:(lia)). clear K K'.
    revert j J. apply less5; rewrite ?P0, ?P1, ?P2, ?P3, ?P4, ?Q0, ?Q1, ?Q2, ?Q3, ?Q4, ?IH by lia; reflexivity. }
  intros j J. rewrite A3, B3, G by lia. reflexivity.
Qed.
Lemma rmd_compression_unique X h g h' g' : (forall j, (j < 5)%nat -> h j = g j) -> rmd_compression X h h' -> rmd_compression X g g' -> forall j, (j < 5)%nat -> h' j = g' j.
Proof.
  intros E (L & R & A1 & A2 & P0 & P1 & P2 & P3 & P4) (L' & R' & B1 & B2 & Q0 & Q1 & Q2 & Q3 & Q4).
  pose proof (rmd_line_unique false X h g L L' E A1 B1) as EL. pose proof (rmd_line_unique true X h g R R' E A2 B2) as ER.
  apply less5; rewrite ?P0, ?P1, ?P2, ?P3, ?P4, ?Q0, ?Q1, ?Q2, ?Q3, ?Q4, ?E, ?EL, ?ER by lia; reflexivity.
Qed.
Theorem ripemd160_unique m d d' : is_ripemd160 m d -> is_ripemd160 m d' -> d = d'.
Proof.
  intros (p & n & h & P & L & [_ I] & C & D) (p' & n' & h' & P' & L' & [_ I'] & C' & D').
  pose proof (pad_unique LE m p p' P P') as E. subst p'. assert (n' = n) as -> by (apply (same_blocks p); assumption).
  assert (G : forall i, (i <= n)%nat -> forall j, (j < 5)%nat -> h i j = h' i j).
  { induction i as [|i IH]; intros T j J; [rewrite <- I, <- I' by exact J; reflexivity|].
    apply (rmd_compression_unique (block_word LE p i) (h i) (h' i)); [intros k K; apply IH; lia|apply C; lia|apply C'; lia|exact J]. }
  apply (digest_unique LE 5 (h n)); [exact D|]. destruct D' as [D1 D2]. split; [exact D1|]. intros j J. rewrite D2 by exact J. symmetry. apply G; lia.
Qed.
