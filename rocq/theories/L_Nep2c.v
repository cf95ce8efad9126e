(** * L_Nep2c: the scrypt of M_Nep2 is the one of S_Nep2 *)
From Coq Require Import Lia Bool.
From Verif Require Import M_Py M_Hash M_Bitcoin M_Nep2 L_Bytes L_VarInt L_Crypto L_Nep2 L_Nep2b S_IO S_KeyPair S_Signature S_Nep2 P_Bitcoin.
From Coq Require Import List ZArith.
Import ListNotations.
Open Scope Z_scope.

(** ** words *)
Lemma add32_plus a b : add32 a b = plus32 a b.
Proof. unfold add32, plus32, m32. change 4294967295 with (Z.ones 32). apply Z.land_ones. lia. Qed.
Lemma plus32_range a b : 0 <= plus32 a b < 2 ^ 32.
Proof. apply Z.mod_pos_bound. reflexivity. Qed.
Lemma lor_disjoint a b n : 0 <= n -> a mod 2 ^ n = 0 -> 0 <= b < 2 ^ n -> Z.lor a b = a + b.
Proof.
  intros Hn A B. assert (D : Z.land a b = 0).
  { apply Z.bits_inj'. intros i Hi. rewrite Z.land_spec, Z.bits_0. destruct (Z.lt_ge_cases i n) as [L|L].
    - rewrite <- (Z.mod_pow2_bits_low a n i L), A, Z.bits_0. reflexivity.
    - assert (Eb : b = b mod 2 ^ n) by (symmetry; apply Z.mod_small, B). rewrite Eb, Z.mod_pow2_bits_high by lia. apply andb_false_r. }
  rewrite Z.add_nocarry_lxor by exact D. symmetry. apply Z.lxor_lor, D.
Qed.
Lemma rotl_rot n x : 0 < n < 32 -> 0 <= x < 2 ^ 32 -> rotl n x = rot32 n x.
Proof.
  intros Hn Hx. unfold rotl, rot32, m32. change 4294967295 with (Z.ones 32). rewrite Z.land_ones, Z.shiftl_mul_pow2, Z.shiftr_div_pow2 by lia.
  assert (E : 2 ^ 32 = 2 ^ n * 2 ^ (32 - n)) by (rewrite <- Z.pow_add_r by lia; f_equal; lia). pose proof (Z.pow_pos_nonneg 2 n ltac:(lia) ltac:(lia)). pose proof (Z.pow_pos_nonneg 2 (32 - n) ltac:(lia) ltac:(lia)).
  apply (lor_disjoint _ _ n); [lia| |].
  - rewrite E, (Z.mul_comm x), Z.mul_mod_distr_l by lia. rewrite Z.mul_comm. apply Z.mod_mul. lia.
  - split; [apply Z.div_pos; lia|]. apply Z.div_lt_upper_bound; [lia|]. lia.
Qed.
Lemma rot_add n a b : 0 < n < 32 -> rotl n (add32 a b) = rot32 n (plus32 a b).
Proof. intros Hn. rewrite add32_plus. apply rotl_rot; [exact Hn|apply plus32_range]. Qed.

Definition columns4 (x : list Z) : list Z := fold_left salsa_quarter [(0, 4, 8, 12); (5, 9, 13, 1); (10, 14, 2, 6); (15, 3, 7, 11)]%nat x.
Definition rows4 (x : list Z) : list Z := fold_left salsa_quarter [(0, 1, 2, 3); (5, 6, 7, 4); (10, 11, 8, 9); (15, 12, 13, 14)]%nat x.
Lemma salsa_double_rows x : salsa_double x = rows4 (columns4 x).
Proof. unfold salsa_double, rows4, columns4, salsa_indices. rewrite <- fold_left_app. reflexivity. Qed.
Lemma nth_upd l i j v : (j < length l)%nat -> nth i (upd l j v) 0 = if (i =? j)%nat then v else nth i l 0.
Proof.
  intros L. unfold upd. destruct (Nat.eqb_spec i j) as [->|N].
  - rewrite app_nth2; rewrite firstn_length_le by lia; [|lia]. rewrite Nat.sub_diag. reflexivity.
  - destruct (Nat.lt_ge_cases i j).
    + rewrite app_nth1 by (rewrite firstn_length_le; lia). rewrite <- (firstn_skipn j l) at 2. rewrite app_nth1 by (rewrite firstn_length_le; lia). reflexivity.
    + rewrite app_nth2; rewrite firstn_length_le by lia; [|lia]. replace (i - j)%nat with (S (i - S j)) by lia. change (nth (S (i - S j)) (v :: skipn (S j) l) 0) with (nth (i - S j) (skipn (S j) l) 0). rewrite nth_skipn_add. f_equal. lia.
Qed.
Lemma upd_length l j v : (j < length l)%nat -> length (upd l j v) = length l.
Proof. intros L. unfold upd. rewrite app_length, firstn_length_le by lia. cbn [length]. rewrite skipn_length. lia. Qed.
Lemma quarter_nth x a b c d z : length x = 16%nat -> (a < 16)%nat -> (b < 16)%nat -> (c < 16)%nat -> (d < 16)%nat -> NoDup [a; b; c; d] -> z = salsa_quarter x (a, b, c, d) ->
  quarter_round (nth a x 0) (nth b x 0) (nth c x 0) (nth d x 0) (nth a z 0) (nth b z 0) (nth c z 0) (nth d z 0) /\ length z = 16%nat /\
  forall i, existsb (Nat.eqb i) [a; b; c; d] = false -> nth i z 0 = nth i x 0.
Proof.
  intros L A B C D N Ez. unfold salsa_quarter in Ez.
  set (vb := Z.lxor (nth b x 0) _) in Ez. set (vc := Z.lxor (nth c x 0) _) in Ez. set (vd := Z.lxor (nth d x 0) _) in Ez. set (va := Z.lxor (nth a x 0) _) in Ez.
  assert (Q : quarter_round (nth a x 0) (nth b x 0) (nth c x 0) (nth d x 0) va vb vc vd) by (unfold quarter_round; rewrite <- !rot_add by lia; repeat split). clearbody va vb vc vd.
  assert (L1 : length (upd x b vb) = 16%nat) by (rewrite upd_length; lia). assert (L2 : length (upd (upd x b vb) c vc) = 16%nat) by (rewrite upd_length; lia). assert (L3 : length (upd (upd (upd x b vb) c vc) d vd) = 16%nat) by (rewrite upd_length; lia).
  assert (Nz : forall i, nth i z 0 = if (i =? a)%nat then va else if (i =? d)%nat then vd else if (i =? c)%nat then vc else if (i =? b)%nat then vb else nth i x 0) by (intros i; subst z; rewrite !nth_upd by lia; reflexivity).
  assert (D4 : a <> b /\ a <> c /\ a <> d /\ b <> c /\ b <> d /\ c <> d). { inversion N as [|? ? N1 M1]; subst. inversion M1 as [|? ? N2 M2]; subst. inversion M2 as [|? ? N3 _]; subst. cbn in N1, N2, N3. repeat split; intros ->; tauto. }
  destruct D4 as (Dab & Dac & Dad & Dbc & Dbd & Dcd). split; [|split].
  - rewrite !Nz. rewrite !Nat.eqb_refl. rewrite !(proj2 (Nat.eqb_neq _ _)) by congruence. exact Q.
  - subst z. rewrite upd_length; lia.
  - intros i E. cbn [existsb] in E. rewrite !orb_false_iff in E. destruct E as (Ea & Eb & Ec & Ed & _). rewrite Nz, Ea, Eb, Ec, Ed. reflexivity.
Qed.
Ltac nodup4 := repeat constructor; cbn; intuition discriminate.
Lemma columns4_ok x : length x = 16%nat -> column_round x (columns4 x).
Proof.
  intros L. unfold columns4. cbn [fold_left].
  set (z1 := salsa_quarter x _). assert (E1 : z1 = salsa_quarter x (0, 4, 8, 12)%nat) by reflexivity. clearbody z1. destruct (quarter_nth x 0 4 8 12 z1) as (Q1 & L1 & U1); try exact E1; try lia; [nodup4|].
  set (z2 := salsa_quarter z1 _). assert (E2 : z2 = salsa_quarter z1 (5, 9, 13, 1)%nat) by reflexivity. clearbody z2. destruct (quarter_nth z1 5 9 13 1 z2) as (Q2 & L2 & U2); try exact E2; try lia; [nodup4|].
  set (z3 := salsa_quarter z2 _). assert (E3 : z3 = salsa_quarter z2 (10, 14, 2, 6)%nat) by reflexivity. clearbody z3. destruct (quarter_nth z2 10 14 2 6 z3) as (Q3 & L3 & U3); try exact E3; try lia; [nodup4|].
  set (z4 := salsa_quarter z3 _). assert (E4 : z4 = salsa_quarter z3 (15, 3, 7, 11)%nat) by reflexivity. clearbody z4. destruct (quarter_nth z3 15 3 7 11 z4) as (Q4 & L4 & U4); try exact E4; try lia; [nodup4|].
  clear E1 E2 E3 E4. unfold column_round. cbv zeta. split; [exact L4|].
  rewrite (U4 0%nat), (U4 4%nat), (U4 8%nat), (U4 12%nat), (U4 5%nat), (U4 9%nat), (U4 13%nat), (U4 1%nat), (U4 10%nat), (U4 14%nat), (U4 2%nat), (U4 6%nat) by reflexivity.
  rewrite (U3 0%nat), (U3 4%nat), (U3 8%nat), (U3 12%nat), (U3 5%nat), (U3 9%nat), (U3 13%nat), (U3 1%nat) by reflexivity.
  rewrite (U2 0%nat), (U2 4%nat), (U2 8%nat), (U2 12%nat) by reflexivity.
  rewrite (U3 15%nat), (U3 3%nat), (U3 7%nat), (U3 11%nat), (U2 15%nat), (U2 3%nat), (U2 7%nat), (U2 11%nat), (U1 15%nat), (U1 3%nat), (U1 7%nat), (U1 11%nat) in Q4 by reflexivity.
  rewrite (U2 10%nat), (U2 14%nat), (U2 2%nat), (U2 6%nat), (U1 10%nat), (U1 14%nat), (U1 2%nat), (U1 6%nat) in Q3 by reflexivity.
  rewrite (U1 5%nat), (U1 9%nat), (U1 13%nat), (U1 1%nat) in Q2 by reflexivity. auto.
Qed.
Lemma rows4_ok x : length x = 16%nat -> row_round x (rows4 x).
Proof.
  intros L. unfold rows4. cbn [fold_left].
  set (z1 := salsa_quarter x _). assert (E1 : z1 = salsa_quarter x (0, 1, 2, 3)%nat) by reflexivity. clearbody z1. destruct (quarter_nth x 0 1 2 3 z1) as (Q1 & L1 & U1); try exact E1; try lia; [nodup4|].
  set (z2 := salsa_quarter z1 _). assert (E2 : z2 = salsa_quarter z1 (5, 6, 7, 4)%nat) by reflexivity. clearbody z2. destruct (quarter_nth z1 5 6 7 4 z2) as (Q2 & L2 & U2); try exact E2; try lia; [nodup4|].
  set (z3 := salsa_quarter z2 _). assert (E3 : z3 = salsa_quarter z2 (10, 11, 8, 9)%nat) by reflexivity. clearbody z3. destruct (quarter_nth z2 10 11 8 9 z3) as (Q3 & L3 & U3); try exact E3; try lia; [nodup4|].
  set (z4 := salsa_quarter z3 _). assert (E4 : z4 = salsa_quarter z3 (15, 12, 13, 14)%nat) by reflexivity. clearbody z4. destruct (quarter_nth z3 15 12 13 14 z4) as (Q4 & L4 & U4); try exact E4; try lia; [nodup4|].
  clear E1 E2 E3 E4. unfold row_round. cbv zeta. split; [exact L4|].
  rewrite (U4 0%nat), (U4 1%nat), (U4 2%nat), (U4 3%nat), (U4 5%nat), (U4 6%nat), (U4 7%nat), (U4 4%nat), (U4 10%nat), (U4 11%nat), (U4 8%nat), (U4 9%nat) by reflexivity.
  rewrite (U3 0%nat), (U3 1%nat), (U3 2%nat), (U3 3%nat), (U3 5%nat), (U3 6%nat), (U3 7%nat), (U3 4%nat) by reflexivity.
  rewrite (U2 0%nat), (U2 1%nat), (U2 2%nat), (U2 3%nat) by reflexivity.
  rewrite (U3 15%nat), (U3 12%nat), (U3 13%nat), (U3 14%nat), (U2 15%nat), (U2 12%nat), (U2 13%nat), (U2 14%nat), (U1 15%nat), (U1 12%nat), (U1 13%nat), (U1 14%nat) in Q4 by reflexivity.
  rewrite (U2 10%nat), (U2 11%nat), (U2 8%nat), (U2 9%nat), (U1 10%nat), (U1 11%nat), (U1 8%nat), (U1 9%nat) in Q3 by reflexivity.
  rewrite (U1 5%nat), (U1 6%nat), (U1 7%nat), (U1 4%nat) in Q2 by reflexivity. auto.
Qed.

(** ** blocks *)
Lemma concat_bytes n (ws : list bytes) : Forall (fun w : bytes => length w = n) ws -> length (concat ws) = (n * length ws)%nat.
Proof. exact (concat_length4 n ws). Qed.
Lemma block_concat n (bs : list bytes) i : Forall (fun b => length b = n) bs -> (i < length bs)%nat -> block n i (concat bs) = nth i bs [].
Proof.
  intros F. revert i. induction F as [|b bs L F IH]; intros i Hi; [cbn in Hi; lia|]. cbv beta in L. unfold block. cbn [concat]. destruct i as [|i].
  - rewrite Nat.mul_0_r. cbn [skipn nth]. rewrite firstn_app, L, Nat.sub_diag, firstn_O, app_nil_r. rewrite <- L. apply firstn_all.
  - cbn [nth]. rewrite <- IH by (cbn in Hi; lia). unfold block. f_equal. rewrite skipn_app. rewrite skipn_all2 by (rewrite L; nia). cbn [app]. f_equal. rewrite L.  nia.
Qed.
Lemma nth_blocks n m fuel (l : bytes) i : (0 < n)%nat -> length l = (n * m)%nat -> (m <= fuel)%nat -> (i < m)%nat -> nth i (blocks_of n fuel l) [] = block n i l.
Proof.
  intros Hn L F Hi. destruct (blocks_exact n m Hn fuel l L F) as (A & B & C). rewrite <- B at 2. symmetry. apply block_concat; [exact A|]. unfold bytes in *. lia.
Qed.
Lemma block_length n i m (l : bytes) : length l = (n * m)%nat -> (i < m)%nat -> length (block n i l) = n.
Proof. intros L Hi. unfold block. rewrite firstn_length, skipn_length. nia. Qed.
Lemma nth_map0 {A} (f : A -> Z) (l : list A) i d : (i < length l)%nat -> nth i (map f l) 0 = f (nth i l d).
Proof. intros L. rewrite (nth_indep _ 0 (f d)) by (rewrite map_length; exact L). apply map_nth. Qed.

(** ** Salsa20/8 *)
Lemma num_bytes2z e l : num e l = bytes2z e l.
Proof. destruct e; unfold num, bytes2z; [apply L_IO.num_le_eq|apply L_IO.num_be_eq]. Qed.
Lemma words_ok (b : bytes) : length b = 64%nat -> words_of b (words LE b).
Proof.
  intros L. destruct (blocks_exact 4 16 ltac:(lia) (length b) b L ltac:(lia)) as (A & B & C). split; [exact L|]. unfold words. split; [rewrite map_length; exact C|].
  intros i Hi. rewrite (nth_map0 (bytes2z LE) _ i []) by (unfold bytes in *; rewrite C; exact Hi). rewrite num_bytes2z. f_equal. apply (nth_blocks 4 16); lia.
Qed.
Lemma words_back z : length z = 16%nat -> Forall (fun v => 0 <= v < 2 ^ 32) z -> words_of (concat (map (z2bytes LE 4) z)) z.
Proof.
  intros L F. assert (A : Forall (fun b : bytes => length b = 4%nat) (map (z2bytes LE 4) z)) by (apply Forall_map, Forall_forall; intros v _; apply z2bytes_length).
  split; [rewrite (concat_bytes 4) by exact A; rewrite map_length, L; reflexivity|]. split; [exact L|]. intros i Hi.
  change (firstn 4 (skipn (4 * i) (concat (map (z2bytes LE 4) z)))) with (block 4 i (concat (map (z2bytes LE 4) z))).
  rewrite block_concat by (try exact A; rewrite map_length; lia). rewrite (nth_indep _ [] (z2bytes LE 4 0)) by (rewrite map_length; lia). rewrite map_nth. symmetry. apply num_z2bytes.
  apply (proj1 (Forall_forall _ _) F). apply nth_In. lia.
Qed.
Lemma double_length x : length x = 16%nat -> length (salsa_double x) = 16%nat.
Proof. intros L. rewrite salsa_double_rows. apply rows4_ok, columns4_ok, L. Qed.
Lemma salsa8_spec b : length b = 64%nat -> salsa20_8 b (salsa8 b) /\ length (salsa8 b) = 64%nat.
Proof.
  intros L. pose proof (words_ok b L) as W. unfold salsa8. cbv zeta. set (x := words LE b) in *. assert (Lx : length x = 16%nat) by apply W. clearbody x.
  assert (St : forall y y', length y = 16%nat -> y' = salsa_double y -> row_round (columns4 y) y' /\ length y' = 16%nat) by (intros y y' Ly ->; rewrite salsa_double_rows; split; [|apply rows4_ok, columns4_ok, Ly]; apply rows4_ok, columns4_ok, Ly).
  set (x1 := salsa_double x). destruct (St x x1 Lx eq_refl) as (R1 & L1). clearbody x1. set (x2 := salsa_double x1). destruct (St x1 x2 L1 eq_refl) as (R2 & L2). clearbody x2.
  set (x3 := salsa_double x2). destruct (St x2 x3 L2 eq_refl) as (R3 & L3). clearbody x3. set (x4 := salsa_double x3). destruct (St x3 x4 L3 eq_refl) as (R4 & L4). clearbody x4. clear St.
  set (z := map (fun p => plus32 (fst p) (snd p)) (combine x x4)). assert (Lz : length z = 16%nat) by (unfold z; rewrite map_length, combine_length; lia).
  assert (Ez : map (fun p => z2bytes LE 4 (add32 (fst p) (snd p))) (combine x x4) = map (z2bytes LE 4) z) by (unfold z; rewrite map_map; apply map_ext; intros p; rewrite add32_plus; reflexivity). rewrite Ez.
  assert (Rz : Forall (fun v => 0 <= v < 2 ^ 32) z) by (apply Forall_map, Forall_forall; intros p _; apply plus32_range).
  pose proof (words_back z Lz Rz) as Wz. split; [|apply Wz].
  exists x, (columns4 x), x1, (columns4 x1), x2, (columns4 x2), x3, (columns4 x3), x4, z.
  split; [exact W|]. split; [apply columns4_ok, Lx|]. split; [exact R1|]. split; [apply columns4_ok, L1|]. split; [exact R2|].
  split; [apply columns4_ok, L2|]. split; [exact R3|]. split; [apply columns4_ok, L3|]. split; [exact R4|].
  split; [exact Wz|]. intros i Hi. unfold z. rewrite (nth_map0 _ _ i (0, 0)) by (rewrite combine_length; lia). rewrite combine_nth by lia. reflexivity.
Qed.

(** ** scryptBlockMix *)
Lemma bxor_length a b : length a = length b -> length (bxor a b) = length a.
Proof. intros L. unfold bxor. rewrite map_length, combine_length. lia. Qed.
Lemma nth_map_any {A B} (f : A -> B) l i d d' : (i < length l)%nat -> nth i (map f l) d = f (nth i l d').
Proof. intros L. rewrite (nth_indep _ d (f d')) by (rewrite map_length; exact L). apply map_nth. Qed.
Lemma bxor_xored a b : length a = length b -> xored a b (bxor a b).
Proof.
  intros L. split; [lia|]. split; [apply bxor_length, L|]. intros i Hi. unfold bxor.
  rewrite (nth_map_any _ _ i x00 (x00, x00)) by (rewrite combine_length; lia).
  rewrite combine_nth by exact L. cbn [fst snd]. apply byte_xor.
Qed.
Lemma go_length X l : length (block_mix_go X l) = length l.
Proof. revert X. induction l as [|b l IH]; intros X; [reflexivity|]. cbn [block_mix_go length]. rewrite IH. reflexivity. Qed.
(** the values of X: the first, and then those of the list *)
Definition Xs (X : bytes) (l : list bytes) (i : nat) : bytes := nth i (X :: block_mix_go X l) [].
Lemma go_nth X l i : (i < length l)%nat -> Xs X l (S i) = salsa8 (bxor (Xs X l i) (nth i l [])).
Proof.
  unfold Xs. revert X i. induction l as [|b l IH]; intros X i Hi; [cbn in Hi; lia|]. destruct i as [|i]; [reflexivity|].
  cbn [block_mix_go nth]. cbn [length] in Hi. specialize (IH (salsa8 (bxor X b)) i ltac:(lia)). cbn [nth] in IH. exact IH.
Qed.
Lemma Xs_length X l i : length X = 64%nat -> Forall (fun b : bytes => length b = 64%nat) l -> (i <= length l)%nat -> length (Xs X l i) = 64%nat.
Proof.
  intros LX F. induction i as [|i IH]; intros Hi; [exact LX|]. rewrite go_nth by lia. apply salsa8_spec. rewrite bxor_length; [apply IH; lia|].
  rewrite IH by lia. symmetry. assert (I : In (nth i l []) l) by (apply nth_In; lia). exact (proj1 (Forall_forall _ _) F _ I).
Qed.
Lemma evens_odds {A} (l : list A) r d : length l = (2 * r)%nat -> length (evens l) = r /\ length (odds l) = r /\
  forall i, (i < r)%nat -> nth i (evens l) d = nth (2 * i) l d /\ nth i (odds l) d = nth (2 * i + 1) l d.
Proof.
  revert l. induction r as [|r IH]; intros l L.
  - destruct l; [|discriminate L]. split; [reflexivity|]. split; [reflexivity|]. intros i Hi. lia.
  - destruct l as [|a [|b l]]; [discriminate L|cbn in L; lia|]. destruct (IH l ltac:(cbn in L; lia)) as (A1 & A2 & A3). cbn [evens odds length]. split; [lia|]. split; [lia|].
    intros i Hi. destruct i as [|i]; [split; reflexivity|]. destruct (A3 i ltac:(lia)) as (B1 & B2). replace (2 * S i)%nat with (S (S (2 * i))) by lia. cbn [Nat.add nth]. split; [exact B1|exact B2].
Qed.
Lemma mix_list r (l : list bytes) : (0 < r)%nat -> length l = (2 * r)%nat -> Forall (fun b : bytes => length b = 64%nat) l ->
  blockmix r (concat l) (let Y := block_mix_go (last l []) l in concat (evens Y ++ odds Y)).
Proof.
  intros Hr C A. cbv zeta. assert (N : forall i, (i < 2 * r)%nat -> block 64 i (concat l) = nth i l []) by (intros i Hi; apply block_concat; [exact A|lia]).
  assert (Lc : length (concat l) = (128 * r)%nat) by (rewrite (concat_bytes 64) by exact A; lia).
  set (X := last l []). assert (EX : X = block 64 (2 * r - 1) (concat l)) by (unfold X; rewrite last_nth, C; symmetry; apply N; lia).
  assert (LX : length X = 64%nat) by (rewrite EX; apply (block_length _ _ (2 * r)); lia). clearbody X.
  assert (Lg : length (block_mix_go X l) = (2 * r)%nat) by (rewrite go_length; exact C).
  destruct (evens_odds (block_mix_go X l) r [] Lg) as (E1 & E2 & E3).
  assert (G : forall i, nth i (block_mix_go X l) [] = Xs X l (S i)) by reflexivity.
  assert (XL : forall i, (i <= 2 * r)%nat -> length (Xs X l i) = 64%nat) by (intros i Hi; apply Xs_length; [exact LX|exact A|lia]).
  assert (F : Forall (fun b : bytes => length b = 64%nat) (evens (block_mix_go X l) ++ odds (block_mix_go X l))).
  { apply Forall_forall. intros y Iy. apply (In_nth _ _ []) in Iy. destruct Iy as (i & Hi & <-). rewrite app_length in Hi. destruct (Nat.lt_ge_cases i r) as [K|K].
    - rewrite app_nth1 by lia. rewrite (proj1 (E3 i K)), G. apply XL. lia.
    - rewrite app_nth2 by lia. rewrite E1. rewrite (proj2 (E3 (i - r)%nat ltac:(lia))), G. apply XL. lia. }
  split; [exact Lc|]. split; [rewrite (concat_bytes 64) by exact F; rewrite app_length; lia|]. exists (Xs X l). split; [exact EX|]. split.
  - intros i Hi. exists (bxor (Xs X l i) (block 64 i (concat l))). assert (Lb : length (Xs X l i) = length (block 64 i (concat l))) by (rewrite XL, (block_length 64 i (2 * r)) by lia; reflexivity).
    split; [apply bxor_xored, Lb|]. rewrite Nat.add_1_r. rewrite go_nth by lia. rewrite <- N by exact Hi. apply salsa8_spec. rewrite bxor_length by exact Lb. apply XL. lia.
  - intros i Hi. rewrite !block_concat by (try exact F; rewrite app_length; lia). rewrite app_nth1 by lia. rewrite app_nth2 by lia. rewrite E1. replace (r + i - r)%nat with i by lia.
    destruct (E3 i Hi) as (B1 & B2). rewrite B1, B2, !G. split; f_equal; lia.
Qed.
Lemma block_mix_spec r b : (0 < r)%nat -> length b = (128 * r)%nat -> blockmix r b (block_mix b).
Proof.
  intros Hr L. destruct (blocks_exact 64 (2 * r) ltac:(lia) (length b) b ltac:(lia) ltac:(lia)) as (A & B & C).
  pose proof (mix_list r (blocks_of 64 (length b) b) Hr C A) as M. rewrite B in M. exact M.
Qed.

(** ** scryptROMix *)
Lemma iter_r {A} (f : A -> A) n x : Nat.iter (S n) f x = Nat.iter n f (f x).
Proof. induction n as [|n IH]; [reflexivity|]. cbn [Nat.iter nat_rect] in *. change (f (Nat.iter (S n) f x) = f (Nat.iter n f (f x))). f_equal. exact IH. Qed.
Lemma fill_spec N X : length (fst (romix_fill N X)) = N /\ snd (romix_fill N X) = Nat.iter N block_mix X /\
  forall i, (i < N)%nat -> nth i (fst (romix_fill N X)) [] = Nat.iter i block_mix X.
Proof.
  revert X. induction N as [|N IH]; intros X; [split; [reflexivity|]; split; [reflexivity|]; intros i Hi; lia|]. cbn [romix_fill].
  destruct (IH (block_mix X)) as (A & B & C). destruct (romix_fill N (block_mix X)) as [V Y]. cbn [fst snd] in *. split; [cbn [length]; lia|]. split.
  - rewrite B. rewrite iter_r. reflexivity.
  - intros i Hi. destruct i as [|i]; [reflexivity|]. cbn [nth]. rewrite C by lia. rewrite iter_r. reflexivity.
Qed.
Lemma mix_iter n N V X : romix_mix n N V X = Nat.iter n (fun X => block_mix (bxor X (nth (integerify X N) V []))) X.
Proof. revert X. induction n as [|n IH]; intros X; [reflexivity|]. cbn [romix_mix]. rewrite IH, iter_r. reflexivity. Qed.
Lemma romix_spec r N b : (0 < r)%nat -> (0 < N)%nat -> length b = (128 * r)%nat -> romix_is r N b (romix N b) /\ length (romix N b) = (128 * r)%nat.
Proof.
  intros Hr HN L. unfold romix. destruct (fill_spec N b) as (A & B & C). destruct (romix_fill N b) as [V Y]. cbn [fst snd] in *. rewrite mix_iter. subst Y.
  set (Vf := fun i => Nat.iter i block_mix b). set (step := fun X => block_mix (bxor X (nth (integerify X N) V []))). set (X := fun i => Nat.iter i step (Vf N)).
  assert (LV : forall i, length (Vf i) = (128 * r)%nat). { intros i. induction i as [|i IH]; [exact L|]. exact (proj1 (proj2 (block_mix_spec r (Vf i) Hr IH))). }
  assert (I : forall Y, length Y = (128 * r)%nat -> let j := Z.to_nat (num LE (block 64 (2 * r - 1) Y) mod Z.of_nat N) in integerify Y N = j /\ (j < N)%nat).
  { intros Y LY. split.
    - unfold integerify. rewrite num_bytes2z. unfold block. rewrite LY. replace (64 * (2 * r - 1))%nat with (128 * r - 64)%nat by lia. rewrite firstn_all2; [reflexivity|]. rewrite skipn_length, LY. lia.
    - pose proof (Z.mod_pos_bound (num LE (block 64 (2 * r - 1) Y)) (Z.of_nat N) ltac:(lia)). lia. }
  assert (S1 : forall Y, length Y = (128 * r)%nat -> exists t, xored Y (Vf (Z.to_nat (num LE (block 64 (2 * r - 1) Y) mod Z.of_nat N))) t /\ blockmix r t (step Y)).
  { intros Y LY. destruct (I Y LY) as (E & J). unfold step. unfold bytes in *. rewrite E. rewrite C by exact J. set (j := Z.to_nat _) in *. exists (bxor Y (Vf j)).
    assert (Lj : length Y = length (Vf j)) by (rewrite LV, LY; reflexivity). split; [apply bxor_xored, Lj|]. apply block_mix_spec; [exact Hr|]. rewrite bxor_length by exact Lj. exact LY. }
  assert (LX : forall i, length (X i) = (128 * r)%nat). { intros i. induction i as [|i IH]; [apply LV|]. destruct (S1 (X i) IH) as (t & _ & M). exact (proj1 (proj2 M)). }
  split; [|apply (LX N)]. exists Vf, X. split; [reflexivity|]. split; [|split; [reflexivity|split; [|reflexivity]]].
  - intros i Hi. rewrite Nat.add_1_r. apply block_mix_spec; [exact Hr|apply LV].
  - intros i Hi. rewrite Nat.add_1_r. exact (S1 (X i) (LX i)).
Qed.

(** ** PBKDF2 and the whole *)
Lemma hmac_any_spec H key msg : hash_ok H -> hmac_any_is H key msg (hmac_any H key msg).
Proof.
  intros (O & _). unfold hmac_any. split; intros L.
  - replace (64 <? length key)%nat with false by (symmetry; apply Nat.ltb_ge; exact L). apply hmac_spec, L.
  - replace (64 <? length key)%nat with true by (symmetry; apply Nat.ltb_lt; exact L). apply hmac_spec. rewrite O. lia.
Qed.
Lemma pbkdf2_blocks_concat H P S m : forall k, pbkdf2_blocks H P S m k = concat (map (fun j => hmac_any H P (S ++ z2bytes BE 4 (k + Z.of_nat j))) (seq 0 m)).
Proof.
  induction m as [|m IH]; intros k; [reflexivity|]. cbn [pbkdf2_blocks seq map concat]. rewrite Z.add_0_r, IH. f_equal. f_equal. rewrite <- seq_shift, map_map. apply map_ext. intros j. do 3 f_equal. lia.
Qed.
Lemma hmac_any_length H key msg : hash_ok H -> length (hmac_any H key msg) = 32%nat.
Proof. intros (O & _). unfold hmac_any, hmac_sha256. apply O. Qed.
Lemma pbkdf2_spec H P S n : hash_ok H -> Z.of_nat n <= (2 ^ 32 - 1) * 32 -> pbkdf2_is H P S (pbkdf2 H P S n) /\ length (pbkdf2 H P S n) = n.
Proof.
  intros O B. unfold pbkdf2. rewrite pbkdf2_blocks_concat. set (T := fun j : nat => hmac_any H P (S ++ z2bytes BE 4 (1 + Z.of_nat j))). set (m := ((n + 31) / 32)%nat).
  assert (Hm : (n <= 32 * m)%nat) by (unfold m; pose proof (Nat.div_mod_eq (n + 31) 32); pose proof (Nat.mod_upper_bound (n + 31) 32 ltac:(lia)); lia).
  assert (F : Forall (fun b : bytes => length b = 32%nat) (map T (seq 0 m))) by (apply Forall_map, Forall_forall; intros j _; apply hmac_any_length, O).
  assert (Lc : length (concat (map T (seq 0 m))) = (32 * m)%nat) by (rewrite (concat_bytes 32) by exact F; rewrite map_length, seq_length; reflexivity).
  assert (Ln : length (firstn n (concat (map T (seq 0 m)))) = n) by (rewrite firstn_length_le; lia). split; [|exact Ln]. exists T. rewrite Ln. split.
  - intros i Hi. exists (z2bytes BE 4 (1 + Z.of_nat i)). split; [apply z2bytes_length|]. split; [|apply hmac_any_spec, O].
    change (num_be (z2bytes BE 4 (1 + Z.of_nat i))) with (num BE (z2bytes BE 4 (1 + Z.of_nat i))). rewrite num_z2bytes; [lia|]. change (256 ^ Z.of_nat 4) with (2 ^ 32). lia.
  - intros i Hi. pose proof (Nat.div_mod_eq i 32) as D. pose proof (Nat.mod_upper_bound i 32 ltac:(lia)) as U. assert (Q : (i / 32 < m)%nat) by (apply Nat.div_lt_upper_bound; lia).
    transitivity (nth i (concat (map T (seq 0 m))) x00).
    + rewrite <- (firstn_skipn n (concat (map T (seq 0 m)))) at 2. rewrite app_nth1 by lia. reflexivity.
    + rewrite D at 1. rewrite (nth_concat 32); [|exact F|exact U|rewrite map_length, seq_length; exact Q]. f_equal.
      rewrite (nth_indep _ [] (T 0%nat)) by (rewrite map_length, seq_length; exact Q). rewrite map_nth, seq_nth by exact Q. reflexivity.
Qed.
Lemma scrypt_spec H N r p P S n : hash_ok H -> (0 < r)%nat -> (0 < N)%nat -> Z.of_nat (p * (128 * r)) <= (2 ^ 32 - 1) * 32 -> Z.of_nat n <= (2 ^ 32 - 1) * 32 ->
  scrypt_is H N r p P S (scrypt H N r p P S n) /\ length (scrypt H N r p P S n) = n.
Proof.
  intros O Hr HN Bp Bn. unfold scrypt. cbv zeta. replace (p * 128 * r)%nat with (p * (128 * r))%nat by lia.
  destruct (pbkdf2_spec H P S (p * (128 * r)) O Bp) as (S1 & L1). set (B := pbkdf2 H P S (p * (128 * r))) in *. clearbody B.
  destruct (blocks_exact (128 * r) p ltac:(lia) (length B) B ltac:(lia) ltac:(nia)) as (A & C & D).
  assert (Nb : forall i, (i < p)%nat -> nth i (blocks_of (128 * r) (length B) B) [] = block (128 * r) i B) by (intros i Hi; apply (nth_blocks (128 * r) p); nia).
  set (l := blocks_of (128 * r) (length B) B) in *. clearbody l.
  assert (F : Forall (fun b : bytes => length b = (128 * r)%nat) (map (romix N) l)) by (apply Forall_map; eapply Forall_impl; [|exact A]; intros b Lb; apply romix_spec; assumption).
  assert (L2 : length (concat (map (romix N) l)) = length B). { rewrite (concat_bytes (128 * r)) by exact F. rewrite map_length. unfold bytes in *. rewrite D, L1. lia. }
  destruct (pbkdf2_spec H P (concat (map (romix N) l)) n O Bn) as (S2 & L3). split; [|exact L3].
  exists B, (concat (map (romix N) l)). split; [exact L1|]. split; [exact L2|]. split; [exact S1|]. split; [|exact S2].
  intros i Hi. unfold bytes in *. rewrite (block_concat (128 * r)) by (try exact F; rewrite map_length; unfold bytes; rewrite D; exact Hi).
  rewrite (nth_indep _ [] (romix N [])) by (rewrite map_length, D; exact Hi). rewrite map_nth, Nb by exact Hi. apply romix_spec; [exact Hr|exact HN|]. apply (block_length _ _ p); lia.
Qed.
