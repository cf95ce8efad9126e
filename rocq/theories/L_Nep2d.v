(** * L_Nep2d: the relations of S_Nep2 determine their results *)
From Coq Require Import Lia Bool Btauto.
From Verif Require Import M_Py M_Hash M_Nep2 L_Bytes L_VarInt L_Nep2 L_Nep2b S_IO S_KeyPair S_Signature S_Nep2.
Open Scope Z_scope.

Lemma same_nth {A} (d : A) (a b : list A) : length a = length b -> (forall i, (i < length a)%nat -> nth i a d = nth i b d) -> a = b.
Proof. intros L E. apply (nth_ext a b d d L E). Qed.
Lemma same16 (a b : list Z) : length a = 16%nat -> length b = 16%nat -> (forall i, (i < 16)%nat -> nth i a 0 = nth i b 0) -> a = b.
Proof. intros La Lb E. apply (same_nth 0); [congruence|]. rewrite La. exact E. Qed.

(** ** the field *)
Lemma poly_linear a b c : poly_product a (Z.lxor b c) = Z.lxor (poly_product a b) (poly_product a c).
Proof.
  assert (T : forall i, (if Z.testbit (Z.lxor b c) i then a * 2 ^ i else 0) = Z.lxor (if Z.testbit b i then a * 2 ^ i else 0) (if Z.testbit c i then a * 2 ^ i else 0)).
  { intros i. rewrite Z.lxor_spec. destruct (Z.testbit b i), (Z.testbit c i); cbn [xorb]; rewrite ?Z.lxor_nilpotent, ?Z.lxor_0_r, ?Z.lxor_0_l; reflexivity. }
  unfold poly_product. cbn [map fold_right]. rewrite !T.
  repeat match goal with |- context [if Z.testbit b ?i then ?x else 0] => generalize (if Z.testbit b i then x else 0); intros ?
                       | |- context [if Z.testbit c ?i then ?x else 0] => generalize (if Z.testbit c i then x else 0); intros ? end.
  apply Z.bits_inj'. intros n _. rewrite !Z.lxor_spec, Z.testbit_0_l. btauto.
Qed.
Definition big_multiple (d : Z) : bool := (d =? 0) || (256 <=? poly_product 0x11b d).
Lemma big_multiples : forallb (fun n => big_multiple (Z.of_nat n)) (seq 0 256) = true.
Proof. vm_compute. reflexivity. Qed.
Lemma lxor_eq4 a b c d : Z.lxor a b = Z.lxor c d -> Z.lxor a c = Z.lxor b d.
Proof. intros E. apply Z.bits_inj'. intros n _. rewrite !Z.lxor_spec. pose proof (f_equal (fun z => Z.testbit z n) E) as F. cbv beta in F. rewrite !Z.lxor_spec in F. destruct (Z.testbit a n), (Z.testbit b n), (Z.testbit c n), (Z.testbit d n); cbn in *; congruence. Qed.
Lemma gf_unique a b c c' : gf_product a b c -> gf_product a b c' -> c = c'.
Proof.
  intros (B & q & Q & E) (B' & q' & Q' & E'). rewrite E in E'. apply lxor_eq4 in E'. rewrite <- poly_linear in E'.
  pose proof (lxor_byte q q' Q Q') as D. pose proof (all_bytes big_multiple big_multiples _ D) as M. unfold big_multiple in M. pose proof (lxor_byte c c' B B') as Bc. unfold byte_z in Bc.
  assert (Z : Z.lxor q q' = 0) by lia. rewrite Z in E'. apply Z.lxor_eq. exact E'.
Qed.

(** multiplication by an element, and that it has no kernel *)
Definition xt (i : nat) (x : Z) : Z := Nat.iter i xtime x.
Definition gf_mul (x d : Z) : Z := fold_right Z.lxor 0 (map (fun i => if Z.testbit d (Z.of_nat i) then xt i x else 0) (seq 0 8)).
Definition quot_ok (x : Z) : bool := forallb (fun i => let q := poly_quotient 7 (x * 2 ^ Z.of_nat i) 0 in
  (0 <=? q) && (q <? 256) && (x * 2 ^ Z.of_nat i =? Z.lxor (xt i x) (poly_product 0x11b q))) (seq 0 8).
Lemma quots_ok : forallb (fun n => quot_ok (Z.of_nat n)) (seq 0 256) = true.
Proof. vm_compute. reflexivity. Qed.
Lemma xt_byte i x : byte_z x -> byte_z (xt i x).
Proof. intros B. induction i as [|i IH]; [exact B|]. cbn. apply xtime_range, IH. Qed.
Lemma zero_byte : byte_z 0. Proof. unfold byte_z. lia. Qed.
Lemma gf_mul_ok x d : byte_z x -> gf_product x d (gf_mul x d).
Proof.
  intros B. pose proof (all_bytes quot_ok quots_ok x B) as Q. unfold quot_ok in Q. rewrite forallb_forall in Q.
  assert (K : forall i, In i (seq 0 8) -> exists q, byte_z q /\ (if Z.testbit d (Z.of_nat i) then x * 2 ^ Z.of_nat i else 0) = Z.lxor (if Z.testbit d (Z.of_nat i) then xt i x else 0) (poly_product 0x11b q)).
  { intros i I. specialize (Q i I). cbv zeta in Q. set (q := poly_quotient 7 _ 0) in *. rewrite !andb_true_iff in Q. destruct Q as ((Q1 & Q2) & Q3). apply Z.eqb_eq in Q3.
    destruct (Z.testbit d (Z.of_nat i)); [exists q; split; [unfold byte_z; lia|exact Q3]|exists 0; split; [exact zero_byte|reflexivity]]. }
  assert (P : poly_product x d = fold_right Z.lxor 0 (map (fun i => if Z.testbit d (Z.of_nat i) then x * 2 ^ Z.of_nat i else 0) (seq 0 8))) by reflexivity.
  unfold gf_product. rewrite P. clear P Q. unfold gf_mul. revert K. generalize (seq 0 8) as l. intros l K. induction l as [|i l IH].
  - cbn. split; [lia|]. exists 0. split; [lia|]. reflexivity.
  - cbn [map fold_right]. destruct IH as (Bl & q & Bq & Eq); [intros j J; apply K; right; exact J|]. destruct (K i (or_introl eq_refl)) as (qi & Bi & Ei). split.
    + apply lxor_byte; [|exact Bl]. destruct (Z.testbit d (Z.of_nat i)); [apply xt_byte, B|exact zero_byte].
    + exists (Z.lxor qi q). split; [apply lxor_byte; assumption|]. rewrite Eq, Ei, poly_linear.
      generalize (if Z.testbit d (Z.of_nat i) then xt i x else 0) (fold_right Z.lxor 0 (map (fun i => if Z.testbit d (Z.of_nat i) then xt i x else 0) l)) (poly_product 283 qi) (poly_product 283 q).
      intros u v s t. apply Z.bits_inj'. intros n _. rewrite !Z.lxor_spec. btauto.
Qed.
Lemma gf_mul_linear x a b : gf_mul x (Z.lxor a b) = Z.lxor (gf_mul x a) (gf_mul x b).
Proof.
  unfold gf_mul. generalize (seq 0 8). intros l. induction l as [|i l IH]; [reflexivity|]. cbn [map fold_right]. rewrite IH, Z.lxor_spec.
  generalize (fold_right Z.lxor 0 (map (fun i => if Z.testbit a (Z.of_nat i) then xt i x else 0) l)) (fold_right Z.lxor 0 (map (fun i => if Z.testbit b (Z.of_nat i) then xt i x else 0) l)) (xt i x).
  intros u v s. destruct (Z.testbit a (Z.of_nat i)), (Z.testbit b (Z.of_nat i)); cbn [xorb]; apply Z.bits_inj'; intros n _; rewrite !Z.lxor_spec, ?Z.testbit_0_l; btauto.
Qed.
Lemma gf_mul_0 x : gf_mul x 0 = 0.
Proof. unfold gf_mul. generalize (seq 0 8). intros l. induction l as [|i l IH]; [reflexivity|]. cbn [map fold_right]. rewrite IH, Z.testbit_0_l. reflexivity. Qed.
Definition undo_ok (x : Z) : bool := (x =? 0) || forallb (fun i => gf_mul (nth (Z.to_nat x) gf_inverses 0) (xt i x) =? 2 ^ Z.of_nat i) (seq 0 8).
Lemma undos_ok : forallb (fun n => undo_ok (Z.of_nat n)) (seq 0 256) = true.
Proof. vm_compute. reflexivity. Qed.
Definition bits_ok (d : Z) : bool := fold_right Z.lxor 0 (map (fun i => if Z.testbit d (Z.of_nat i) then 2 ^ Z.of_nat i else 0) (seq 0 8)) =? d.
Lemma all_bits_ok : forallb (fun n => bits_ok (Z.of_nat n)) (seq 0 256) = true.
Proof. vm_compute. reflexivity. Qed.
Lemma gf_mul_undone x d : byte_z x -> x <> 0 -> byte_z d -> gf_mul (nth (Z.to_nat x) gf_inverses 0) (gf_mul x d) = d.
Proof.
  intros B N D. pose proof (all_bytes undo_ok undos_ok x B) as U. unfold undo_ok in U. replace (x =? 0) with false in U by lia. cbn [orb] in U. rewrite forallb_forall in U.
  pose proof (all_bytes bits_ok all_bits_ok d D) as K. unfold bits_ok in K. apply Z.eqb_eq in K. rewrite <- K at 2. clear K.
  unfold gf_mul at 2. revert U. generalize (seq 0 8) as l, (nth (Z.to_nat x) gf_inverses 0) as y. intros l y U.
  induction l as [|i l IH]; [apply gf_mul_0|]. cbn [map fold_right]. rewrite gf_mul_linear, IH by (intros j J; apply U; right; exact J).
  f_equal. specialize (U i (or_introl eq_refl)). apply Z.eqb_eq in U. destruct (Z.testbit d (Z.of_nat i)); [exact U|apply gf_mul_0].
Qed.
Lemma gf_inverse_unique x i i' : byte_z x -> byte_z i -> byte_z i' -> gf_product x i 1 -> gf_product x i' 1 -> i = i'.
Proof.
  intros B I I' P P'. pose proof (gf_unique _ _ _ _ P (gf_mul_ok x i B)) as E. pose proof (gf_unique _ _ _ _ P' (gf_mul_ok x i' B)) as E'.
  destruct (Z.eq_dec x 0) as [->|N].
  { exfalso. assert (gf_mul 0 i = 0) by (unfold gf_mul; cbn [seq map fold_right]; repeat match goal with |- context [xt ?k 0] => change (xt k 0) with 0 end; repeat match goal with |- context [if ?b then 0 else 0] => replace (if b then 0 else 0) with 0 by (destruct b; reflexivity) end; reflexivity). lia. }
  rewrite <- (gf_mul_undone x i B N I), <- (gf_mul_undone x i' B N I'). f_equal. congruence.
Qed.
Lemma gf_zero i : ~ gf_product 0 i 1.
Proof.
  intros P. assert (Z : gf_product 0 i 0). { split; [lia|]. exists 0. split; [lia|]. unfold poly_product at 1. cbn [map fold_right]. rewrite !Z.mul_0_l.
    repeat match goal with |- context [if ?b then 0 else 0] => replace (if b then 0 else 0) with 0 by (destruct b; reflexivity) end. reflexivity. }
  pose proof (gf_unique _ _ _ _ P Z). discriminate.
Qed.
Lemma byte_bits a b : byte_z a -> byte_z b -> (forall n, 0 <= n < 8 -> Z.testbit a n = Z.testbit b n) -> a = b.
Proof.
  intros A B E. apply Z.bits_inj'. intros n N. destruct (Z_lt_le_dec n 8) as [L|L]; [apply E; lia|].
  unfold byte_z in *. rewrite <- (Z.mod_small a (2 ^ 8)), <- (Z.mod_small b (2 ^ 8)) by (cbn; lia). rewrite !Z.mod_pow2_bits_high by lia. reflexivity.
Qed.
Lemma sbox_unique x s s' : byte_z x -> sbox_is x s -> sbox_is x s' -> s = s'.
Proof.
  intros B (S & i & I & D & E) (S' & i' & I' & D' & E').
  assert (i = i') as <-.
  { destruct D as [[X0 I0]|D], D' as [[X0' I0']|D']; [lia|subst x; destruct (gf_zero i' D')|subst x; destruct (gf_zero i D)|exact (gf_inverse_unique x i i' B I I' D D')]. }
  apply byte_bits; [exact S|exact S'|]. intros n N. rewrite (E n N), (E' n N). reflexivity.
Qed.

(** ** the steps of a round *)
Definition bytes_at (s : list Z) : Prop := forall i, (i < 16)%nat -> byte_z (nth i s 0).
Lemma substituted_unique s t t' : bytes_at s -> substituted s t -> substituted s t' -> t = t' /\ bytes_at t.
Proof.
  intros B (L & E) (L' & E'). split; [|intros i I; apply (E i I)]. apply same16; [exact L|exact L'|]. intros i I. exact (sbox_unique _ _ _ (B i I) (E i I) (E' i I)).
Qed.
Lemma rc_index i : (i < 16)%nat -> exists r c, i = (r + 4 * c)%nat /\ (r < 4)%nat /\ (c < 4)%nat.
Proof. intros I. exists (i mod 4)%nat, (i / 4)%nat. pose proof (Nat.div_mod i 4 ltac:(lia)). pose proof (Nat.mod_upper_bound i 4 ltac:(lia)). split; [lia|]. split; [assumption|]. apply Nat.div_lt_upper_bound; lia. Qed.
Lemma rows_shifted_unique s t t' : bytes_at s -> rows_shifted s t -> rows_shifted s t' -> t = t' /\ bytes_at t.
Proof.
  intros B (L & E) (L' & E'). split.
  - apply same16; [exact L|exact L'|]. intros i I. destruct (rc_index i I) as (r & c & -> & R & C). pose proof (E _ _ R C) as E1. pose proof (E' _ _ R C) as E2. unfold at_rc in *. congruence.
  - intros i I. destruct (rc_index i I) as (r & c & -> & R & C). pose proof (E _ _ R C) as E1. unfold at_rc in E1. rewrite E1. apply B. pose proof (Nat.mod_upper_bound (c + r) 4 ltac:(lia)). lia.
Qed.
Lemma columns_mixed_unique s t t' : columns_mixed s t -> columns_mixed s t' -> t = t' /\ bytes_at t.
Proof.
  intros (L & E) (L' & E'). split.
  - apply same16; [exact L|exact L'|]. intros i I. destruct (rc_index i I) as (r & c & -> & R & C).
    destruct (E _ _ R C) as (p0 & p1 & p2 & p3 & P0 & P1 & P2 & P3 & EE). destruct (E' _ _ R C) as (q0 & q1 & q2 & q3 & Q0 & Q1 & Q2 & Q3 & EE'). unfold at_rc in EE, EE'. rewrite EE, EE'.
    rewrite (gf_unique _ _ _ _ P0 Q0), (gf_unique _ _ _ _ P1 Q1), (gf_unique _ _ _ _ P2 Q2), (gf_unique _ _ _ _ P3 Q3). reflexivity.
  - intros i I. destruct (rc_index i I) as (r & c & -> & R & C). destruct (E _ _ R C) as (p0 & p1 & p2 & p3 & P0 & P1 & P2 & P3 & EE). unfold at_rc in EE. rewrite EE.
    apply lxor_byte; [apply P0|]. apply lxor_byte; [apply P1|]. apply lxor_byte; [apply P2|apply P3].
Qed.
Lemma added_unique s k k' t t' : bytes_at s -> bytes_at k -> (forall i, (i < 16)%nat -> nth i k 0 = nth i k' 0) -> added s k t -> added s k' t' -> t = t' /\ bytes_at t.
Proof.
  intros B K KK (L & E) (L' & E'). split.
  - apply same16; [exact L|exact L'|]. intros i I. rewrite (E i I), (E' i I), (KK i I). reflexivity.
  - intros i I. rewrite (E i I). apply lxor_byte; [apply B, I|apply K, I].
Qed.

(** ** the key schedule *)
Lemma rcon_unique n a : rcon_is n a -> forall b, rcon_is n b -> a = b.
Proof.
  induction 1 as [|n a b R IH P]; intros c C.
  - inversion C as [|? ? ? R0]; [reflexivity|]. inversion R0.
  - inversion C as [|n' a' b' R' P' E1]; subst. { inversion R. } assert (a = a') as <- by (apply IH; exact R'). exact (gf_unique _ _ _ _ P P').
Qed.
Lemma schedule_unique nk key w w' : (0 < nk)%nat -> key_schedule nk key w -> key_schedule nk key w' ->
  forall i, (i < 4 * (nk + 7))%nat -> forall j, (j < 4)%nat -> nth j (w i) 0 = nth j (w' i) 0 /\ byte_z (nth j (w i) 0).
Proof.
  intros NK (F & N) (F' & N') i. induction i as [i IH] using (well_founded_induction Wf_nat.lt_wf). intros I j J.
  destruct (Nat.lt_ge_cases i nk) as [L|L].
  - rewrite (F i L j J), (F' i L j J). split; [reflexivity|apply b2z_byte].
  - destruct (N i (conj L I)) as (t & T & T0 & T4 & TO). destruct (N' i (conj L I)) as (t' & T' & T0' & T4' & TO').
    assert (A : nth j (w (i - nk)%nat) 0 = nth j (w' (i - nk)%nat) 0 /\ byte_z (nth j (w (i - nk)%nat) 0)) by (apply IH; lia).
    assert (P : forall j, (j < 4)%nat -> nth j (w (i - 1)%nat) 0 = nth j (w' (i - 1)%nat) 0 /\ byte_z (nth j (w (i - 1)%nat) 0)) by (intros j0 J0; apply IH; lia).
    assert (TT : nth j t 0 = nth j t' 0 /\ byte_z (nth j t 0)).
    { destruct (Nat.eq_dec (i mod nk) 0) as [M|M]; [|destruct (Nat.eq_dec (i mod nk) 4) as [M4|M4]; [destruct (Nat.eq_dec nk 8) as [N8|N8]|]].
      - destruct (T0 M) as (rc & RC & E). destruct (T0' M) as (rc' & RC' & E'). destruct (E j J) as (s & S & EE). destruct (E' j J) as (s' & S' & EE').
        assert (J1 : ((j + 1) mod 4 < 4)%nat) by (apply Nat.mod_upper_bound; lia). destruct (P _ J1) as [P1 P2]. rewrite <- P1 in S'. rewrite EE, EE', (sbox_unique _ _ _ P2 S S'), (rcon_unique _ _ RC _ RC').
        split; [reflexivity|]. apply lxor_byte; [apply S'|]. destruct (j =? 0)%nat; [exact (rcon_byte _ _ RC')|exact zero_byte].
      - pose proof (T4 M4 N8 j J) as E. pose proof (T4' M4 N8 j J) as E'. destruct (P j J) as [P1 P2]. rewrite <- P1 in E'. split; [exact (sbox_unique _ _ _ P2 E E')|apply E].
      - rewrite (TO M ltac:(tauto) j J), (TO' M ltac:(tauto) j J). apply P, J.
      - rewrite (TO M ltac:(tauto) j J), (TO' M ltac:(tauto) j J). apply P, J. }
    rewrite (T j J), (T' j J). destruct A as [A1 A2], TT as [TT1 TT2]. rewrite <- A1, <- TT1. split; [reflexivity|apply lxor_byte; assumption].
Qed.
Lemma bytes_at_block (b : bytes) : bytes_at (map b2z b).
Proof. intros i I. apply nth_byte, bytes_z. Qed.
Lemma aes_block_unique nk key block out out' : (0 < nk)%nat -> aes_block nk key block out -> aes_block nk key block out' -> out = out'.
Proof.
  intros NK (w & k & s & a & b & KS & K & A0 & R & S & SH & A) (w' & k' & s' & a' & b' & KS' & K' & A0' & R' & S' & SH' & A').
  pose proof (schedule_unique nk key w w' NK KS KS') as W.
  assert (KK : forall r, (r < nk + 7)%nat -> forall i, (i < 16)%nat -> nth i (k r) 0 = nth i (k' r) 0 /\ byte_z (nth i (k r) 0)).
  { intros r Rr i I. rewrite (K r i Rr I), (K' r i Rr I). apply W; [|apply Nat.mod_upper_bound; lia]. assert (i / 4 < 4)%nat by (apply Nat.div_lt_upper_bound; lia). lia. }
  assert (BK : forall r, (r < nk + 7)%nat -> bytes_at (k r)) by (intros r Rr i I; apply (KK r Rr i I)).
  assert (EK : forall r, (r < nk + 7)%nat -> forall i, (i < 16)%nat -> nth i (k r) 0 = nth i (k' r) 0) by (intros r Rr i I; apply (KK r Rr i I)).
  assert (ST : forall r, (r < nk + 6)%nat -> s r = s' r /\ bytes_at (s r)).
  { induction r as [|r IH]; intros Rr.
    - exact (added_unique _ _ _ _ _ (bytes_at_block block) (BK 0%nat ltac:(lia)) (EK 0%nat ltac:(lia)) A0 A0').
    - destruct (IH ltac:(lia)) as [E B]. destruct (R r ltac:(lia)) as (t & u & v & R1 & R2 & R3 & R4). destruct (R' r ltac:(lia)) as (t' & u' & v' & R1' & R2' & R3' & R4'). rewrite <- E in R1'.
      destruct (substituted_unique _ _ _ B R1 R1') as [<- Bt]. destruct (rows_shifted_unique _ _ _ Bt R2 R2') as [<- Bu]. destruct (columns_mixed_unique _ _ _ R3 R3') as [<- Bv].
      rewrite <- Nat.add_1_r. exact (added_unique _ _ _ _ _ Bv (BK (r + 1)%nat ltac:(lia)) (EK (r + 1)%nat ltac:(lia)) R4 R4'). }
  destruct (ST (nk + 5)%nat ltac:(lia)) as [E B]. rewrite <- E in S'. destruct (substituted_unique _ _ _ B S S') as [<- Ba]. destruct (rows_shifted_unique _ _ _ Ba SH SH') as [<- Bb].
  destruct (added_unique _ _ _ _ _ Bb (BK (nk + 6)%nat ltac:(lia)) (EK (nk + 6)%nat ltac:(lia)) A A') as [EO _].
  rewrite <- (map_z2b_b2z out), <- (map_z2b_b2z out'), EO. reflexivity.
Qed.
Lemma app_same_length {A} (a b c d : list A) : length a = length c -> a ++ b = c ++ d -> a = c /\ b = d.
Proof. revert c. induction a as [|x a IH]; intros [|y c] L E; try discriminate; [split; [reflexivity|exact E]|]. cbn in L, E. assert (x = y) as -> by congruence. destruct (IH c) as [-> ->]; [lia|congruence|]. split; reflexivity. Qed.
Lemma aes_ecb_unique nk key data e : (0 < nk)%nat -> aes_ecb nk key data e -> forall e', aes_ecb nk key data e' -> e = e'.
Proof.
  intros NK. induction 1 as [|block out data outs Lb Lo B _ IH]; intros e' E'.
  - inversion E' as [E|block' out' data' outs' Lb' Lo' B' R' Ed Eo]; [reflexivity|]. exfalso. destruct block'; discriminate.
  - inversion E' as [E Eo|block' out' data' outs' Lb' Lo' B' R' Ed Eo]. { exfalso. destruct block; discriminate. }
    assert (block' = block /\ data' = data) as [-> ->] by (apply app_same_length; [congruence|exact Ed]). rewrite (aes_block_unique _ _ _ _ _ NK B B'), (IH _ R'). reflexivity.
Qed.


(** ** scrypt *)
Lemma quarter_unique y0 y1 y2 y3 a b c d a' b' c' d' : quarter_round y0 y1 y2 y3 a b c d -> quarter_round y0 y1 y2 y3 a' b' c' d' -> a = a' /\ b = b' /\ c = c' /\ d = d'.
Proof. unfold quarter_round. intros (E1 & E2 & E3 & E0) (E1' & E2' & E3' & E0'). assert (b = b') as <- by congruence. assert (c = c') as <- by congruence. assert (d = d') as <- by congruence. repeat split; congruence. Qed.
Lemma round_unique (R : list Z -> list Z -> Prop) (Q : R = column_round \/ R = row_round) x z z' : R x z -> R x z' -> z = z'.
Proof.
  intros A B. apply same16; destruct Q as [-> | ->]; destruct A as (L & A1 & A2 & A3 & A4); destruct B as (L' & B1 & B2 & B3 & B4); try assumption;
    destruct (quarter_unique _ _ _ _ _ _ _ _ _ _ _ _ A1 B1) as (E0 & E1 & E2 & E3); destruct (quarter_unique _ _ _ _ _ _ _ _ _ _ _ _ A2 B2) as (F0 & F1 & F2 & F3);
    destruct (quarter_unique _ _ _ _ _ _ _ _ _ _ _ _ A3 B3) as (G0 & G1 & G2 & G3); destruct (quarter_unique _ _ _ _ _ _ _ _ _ _ _ _ A4 B4) as (H0 & H1 & H2 & H3);
    intros i I; do 16 (destruct i as [|i]; [assumption|]); lia.
Qed.
Lemma words_unique b x x' : words_of b x -> words_of b x' -> x = x'.
Proof. intros (_ & L & E) (_ & L' & E'). apply same16; [exact L|exact L'|]. intros i I. rewrite (E i I), (E' i I). reflexivity. Qed.
Lemma nth_firstn_lt {A} (l : list A) n i d : (i < n)%nat -> nth i (firstn n l) d = nth i l d.
Proof. revert n i. induction l as [|x l IH]; intros [|n] i I; try lia; [reflexivity|]. destruct i as [|i]; [reflexivity|]. cbn. apply IH. lia. Qed.
Lemma nth_blocks (a b : bytes) n i j : (0 < n)%nat -> (j < n)%nat -> block n i a = block n i b -> (n * i + n <= length a)%nat -> (n * i + n <= length b)%nat -> nth (n * i + j) a x00 = nth (n * i + j) b x00.
Proof.
  intros N J E La Lb. unfold block in E. apply (f_equal (fun l => nth j l x00)) in E.
  rewrite !nth_firstn_lt, !nth_skipn_add in E by exact J. exact E.
Qed.
Lemma blocks_same (a b : bytes) n k : (0 < n)%nat -> length a = (n * k)%nat -> length b = (n * k)%nat -> (forall i, (i < k)%nat -> block n i a = block n i b) -> a = b.
Proof.
  intros N La Lb E. apply (nth_ext _ _ x00 x00); [congruence|]. intros i I. rewrite La in I.
  pose proof (Nat.div_mod_eq i n) as DM. pose proof (Nat.mod_upper_bound i n ltac:(lia)) as MU. assert (i / n < k)%nat by (apply Nat.div_lt_upper_bound; lia).
  rewrite DM. assert (n * (i / n) + n <= n * k)%nat by nia. apply nth_blocks; try lia. apply E; assumption.
Qed.
Lemma words_back b b' x : words_of b x -> words_of b' x -> b = b'.
Proof.
  intros (L & _ & E) (L' & _ & E'). apply (blocks_same b b' 4 16); [lia|exact L|exact L'|]. intros i I. unfold block.
  apply (num_inj LE); [|rewrite <- (E i I), <- (E' i I); reflexivity]. rewrite !firstn_length, !skipn_length. lia.
Qed.
Lemma salsa_unique b o o' : salsa20_8 b o -> salsa20_8 b o' -> o = o'.
Proof.
  intros (x & c1 & x1 & c2 & x2 & c3 & x3 & c4 & x4 & z & W & A1 & B1 & A2 & B2 & A3 & B3 & A4 & B4 & WO & E)
         (x' & c1' & x1' & c2' & x2' & c3' & x3' & c4' & x4' & z' & W' & A1' & B1' & A2' & B2' & A3' & B3' & A4' & B4' & WO' & E').
  assert (CC : forall x z z', column_round x z -> column_round x z' -> z = z') by (apply round_unique; left; reflexivity).
  assert (RR : forall x z z', row_round x z -> row_round x z' -> z = z') by (apply round_unique; right; reflexivity).
  destruct (words_unique _ _ _ W W'). destruct (CC _ _ _ A1 A1'). destruct (RR _ _ _ B1 B1'). destruct (CC _ _ _ A2 A2'). destruct (RR _ _ _ B2 B2').
  destruct (CC _ _ _ A3 A3'). destruct (RR _ _ _ B3 B3'). destruct (CC _ _ _ A4 A4'). destruct (RR _ _ _ B4 B4').
  assert (z = z') as <-. { destruct WO as (_ & L & _), WO' as (_ & L' & _). apply same16; [exact L|exact L'|]. intros i I. rewrite (E i I), (E' i I). reflexivity. }
  exact (words_back _ _ _ WO WO').
Qed.
Lemma xored_unique a b c c' : xored a b c -> xored a b c' -> c = c'.
Proof.
  intros (_ & L & E) (_ & L' & E'). apply (nth_ext _ _ x00 x00); [congruence|]. intros i I. rewrite L in I. apply b2z_inj. rewrite (E i I), (E' i I). reflexivity.
Qed.
Lemma blockmix_unique r b o o' : blockmix r b o -> blockmix r b o' -> o = o'.
Proof.
  intros (Lb & Lo & X & X0 & XS & XO) (_ & Lo' & X' & X0' & XS' & XO').
  assert (EX : forall i, (i <= 2 * r)%nat -> X i = X' i).
  { induction i as [|i IH]; intros I; [congruence|]. destruct (XS i ltac:(lia)) as (t & T & S1). destruct (XS' i ltac:(lia)) as (t' & T' & S1'). rewrite <- (IH ltac:(lia)) in T'.
    destruct (xored_unique _ _ _ _ T T'). rewrite <- Nat.add_1_r. exact (salsa_unique _ _ _ S1 S1'). }
  apply (blocks_same o o' 64 (2 * r)); [lia|lia|lia|]. intros i I. destruct (Nat.lt_ge_cases i r) as [C|C].
  - rewrite (proj1 (XO i C)), (proj1 (XO' i C)). apply EX. lia.
  - replace i with (r + (i - r))%nat by lia. assert (I' : (i - r < r)%nat) by lia. rewrite (proj2 (XO _ I')), (proj2 (XO' _ I')). apply EX. lia.
Qed.
Lemma romix_unique r N b o o' : romix_is r N b o -> romix_is r N b o' -> o = o'.
Proof.
  intros (V & X & V0 & VS & X0 & XS & XO) (V' & X' & V0' & VS' & X0' & XS' & XO').
  assert (EV : forall i, (i <= N)%nat -> V i = V' i).
  { induction i as [|i IH]; intros I; [congruence|]. pose proof (VS i ltac:(lia)) as A. pose proof (VS' i ltac:(lia)) as A'. rewrite <- (IH ltac:(lia)) in A'. rewrite <- Nat.add_1_r. exact (blockmix_unique _ _ _ _ A A'). }
  assert (EX : forall i, (i <= N)%nat -> X i = X' i).
  { induction i as [|i IH]; intros I; [rewrite X0, X0'; apply EV; lia|]. destruct (XS i ltac:(lia)) as (t & T & S1). destruct (XS' i ltac:(lia)) as (t' & T' & S1'). rewrite <- (IH ltac:(lia)) in T'.
    rewrite <- EV in T'. 2: { pose proof (Z.mod_pos_bound (num LE (block 64 (2 * r - 1) (X i))) (Z.of_nat N) ltac:(lia)). lia. }
    destruct (xored_unique _ _ _ _ T T'). rewrite <- Nat.add_1_r. exact (blockmix_unique _ _ _ _ S1 S1'). }
  rewrite XO, XO'. apply EX. lia.
Qed.
Lemma hmac_unique H k m a a' : hmac_is H k m a -> hmac_is H k m a' -> a = a'.
Proof.
  intros (z & i & o & F & L & I & O & E) (z' & i' & o' & F' & L' & I' & O' & E').
  assert (z = z') as <-. { rewrite app_length in L, L'. assert (LL : length z = length z') by lia. clear - F F' LL. revert z' F' LL. induction F as [|x z X F IH]; intros [|y z'] F' LL; try discriminate; [reflexivity|]. inversion F'; subst. f_equal. apply IH; [assumption|]. cbn in LL. lia. }
  destruct (xored_unique _ _ _ _ I I'). destruct (xored_unique _ _ _ _ O O'). congruence.
Qed.
Lemma hmac_any_unique H k m a a' : hmac_any_is H k m a -> hmac_any_is H k m a' -> a = a'.
Proof. intros (A & B) (A' & B'). destruct (Nat.le_gt_cases (length k) 64) as [L|L]; [exact (hmac_unique _ _ _ _ _ (A L) (A' L))|exact (hmac_unique _ _ _ _ _ (B L) (B' L))]. Qed.
Lemma pbkdf2_unique H P s o o' : length o = length o' -> pbkdf2_is H P s o -> pbkdf2_is H P s o' -> o = o'.
Proof.
  intros L (T & A & E) (T' & A' & E'). apply (nth_ext _ _ x00 x00); [exact L|]. intros i I. rewrite (E i I), (E' i ltac:(lia)). do 1 f_equal.
  assert (J : (32 * (i / 32) < length o)%nat) by (pose proof (Nat.mul_div_le i 32 ltac:(lia)); lia).
  destruct (A _ J) as (n & Ln & En & Hn). destruct (A' (i / 32)%nat ltac:(lia)) as (n' & Ln' & En' & Hn').
  assert (n = n') as <- by (apply (num_inj BE); [congruence|change (num_be n = num_be n'); congruence]). exact (hmac_any_unique _ _ _ _ _ Hn Hn').
Qed.
Lemma scrypt_unique H N r p P s o o' : (0 < r)%nat -> length o = length o' -> scrypt_is H N r p P s o -> scrypt_is H N r p P s o' -> o = o'.
Proof.
  intros R L (B & C & LB & LC & PB & RM & PO) (B' & C' & LB' & LC' & PB' & RM' & PO').
  assert (B = B') as <- by (apply (pbkdf2_unique H P s); [congruence|assumption|assumption]).
  assert (C = C') as <-. { apply (blocks_same C C' (128 * r) p); [lia|lia|lia|]. intros i I. exact (romix_unique _ _ _ _ _ (RM i I) (RM' i I)). }
  exact (pbkdf2_unique H P C o o' L PO PO').
Qed.
