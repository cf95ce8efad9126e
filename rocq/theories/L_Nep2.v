(** * L_Nep2: lemmas about the AES and scrypt definitions of M_Nep2 *)
From Coq Require Import Lia Bool.
From Verif Require Import M_Py M_Hash M_Nep2 L_Bytes.

Definition byte_z (x : Z) : Prop := 0 <= x < 256.
Definition state (s : list Z) : Prop := length s = 16%nat /\ Forall byte_z s.

(** ** bytes as numbers *)
Lemma lxor_byte a b : byte_z a -> byte_z b -> byte_z (Z.lxor a b).
Proof.
  unfold byte_z. intros A B. assert (0 <= Z.lxor a b) by (apply Z.lxor_nonneg; lia). split; [assumption|].
  assert (L : forall x, 0 <= x < 256 -> Z.log2 x < 8). { intros x R. destruct (Z.eq_dec x 0) as [->|]; [reflexivity|]. apply Z.log2_lt_pow2; [lia|exact (proj2 R)]. }
  destruct (Z.eq_dec (Z.lxor a b) 0) as [->|]; [lia|]. change 256 with (2 ^ 8). apply Z.log2_lt_pow2; [lia|].
  eapply Z.le_lt_trans; [apply Z.log2_lxor; lia|]. apply Z.max_lub_lt; apply L; assumption.
Qed.
Lemma all_bytes (f : Z -> bool) : forallb (fun n => f (Z.of_nat n)) (seq 0 256) = true -> forall x, byte_z x -> f x = true.
Proof.
  intros A x B. rewrite forallb_forall in A. unfold byte_z in B. rewrite <- (Z2Nat.id x) by lia. apply A. apply in_seq. lia.
Qed.
Lemma inv_sub_sub x : byte_z x -> inv_sub_byte (sub_byte x) = x.
Proof. intros B. apply Z.eqb_eq. revert x B. apply (all_bytes (fun x => inv_sub_byte (sub_byte x) =? x)). vm_compute. reflexivity. Qed.
Lemma sub_inv_sub x : byte_z x -> sub_byte (inv_sub_byte x) = x.
Proof. intros B. apply Z.eqb_eq. revert x B. apply (all_bytes (fun x => sub_byte (inv_sub_byte x) =? x)). vm_compute. reflexivity. Qed.
Lemma sub_byte_range x : byte_z x -> byte_z (sub_byte x).
Proof.
  intros B. assert (E : ((0 <=? sub_byte x) && (sub_byte x <? 256))%bool = true); [|unfold byte_z; lia].
  revert x B. apply (all_bytes (fun x => (0 <=? sub_byte x) && (sub_byte x <? 256))%bool). vm_compute. reflexivity.
Qed.
Lemma inv_sub_byte_range x : byte_z x -> byte_z (inv_sub_byte x).
Proof.
  intros B. assert (E : ((0 <=? inv_sub_byte x) && (inv_sub_byte x <? 256))%bool = true); [|unfold byte_z; lia].
  revert x B. apply (all_bytes (fun x => (0 <=? inv_sub_byte x) && (inv_sub_byte x <? 256))%bool). vm_compute. reflexivity.
Qed.
Lemma xtime_range x : byte_z x -> byte_z (xtime x).
Proof.
  intros B. assert (E : ((0 <=? xtime x) && (xtime x <? 256))%bool = true); [|unfold byte_z; lia].
  revert x B. apply (all_bytes (fun x => (0 <=? xtime x) && (xtime x <? 256))%bool). vm_compute. reflexivity.
Qed.

(** ** xtime is linear, so the two mixing matrices are inverse *)
Lemma xtime_bit a i : 0 <= i -> Z.testbit (xtime a) i = xorb (Z.testbit (2 * a) i) (Z.testbit a 7 && Z.testbit 0x11b i).
Proof. intros Hi. unfold xtime. rewrite Z.lxor_spec. destruct (Z.testbit a 7); cbn [andb]; [reflexivity|]. rewrite Z.bits_0. reflexivity. Qed.
Lemma xtime_lxor a b : xtime (Z.lxor a b) = Z.lxor (xtime a) (xtime b).
Proof.
  apply Z.bits_inj'. intros i Hi. rewrite Z.lxor_spec, !xtime_bit, Z.lxor_spec by exact Hi.
  assert (E : Z.testbit (2 * Z.lxor a b) i = xorb (Z.testbit (2 * a) i) (Z.testbit (2 * b) i)).
  { rewrite <- Z.lxor_spec. f_equal. rewrite !(Z.mul_comm 2). change 2 with (2 ^ 1). rewrite <- !Z.shiftl_mul_pow2 by lia. apply Z.shiftl_lxor. }
  rewrite E. destruct (Z.testbit (2 * a) i), (Z.testbit (2 * b) i), (Z.testbit a 7), (Z.testbit b 7), (Z.testbit 283 i); reflexivity.
Qed.
Ltac xor_solve := cbn [map]; repeat f_equal; unfold times9, times11, times13, times14, xor4; rewrite !xtime_lxor;
  apply Z.bits_inj'; intros i _; rewrite !Z.lxor_spec; ring.
Lemma inv_mix_mix a b c d : (let m := mix_column a b c d in inv_mix_column (nth 0 m 0) (nth 1 m 0) (nth 2 m 0) (nth 3 m 0)) = [a; b; c; d].
Proof.
  cbv zeta. unfold mix_column. cbn [nth]. unfold inv_mix_column. repeat apply (f_equal2 (@cons Z)); try reflexivity;
  unfold times9, times11, times13, times14, xor4; rewrite ?xtime_lxor; apply Z.bits_inj'; intros i _; rewrite !Z.lxor_spec; ring.
Qed.
Lemma mix_inv_mix a b c d : (let m := inv_mix_column a b c d in mix_column (nth 0 m 0) (nth 1 m 0) (nth 2 m 0) (nth 3 m 0)) = [a; b; c; d].
Proof.
  cbv zeta. unfold inv_mix_column. cbn [nth]. unfold mix_column. repeat apply (f_equal2 (@cons Z)); try reflexivity;
  unfold times9, times11, times13, times14, xor4; rewrite ?xtime_lxor; apply Z.bits_inj'; intros i _; rewrite !Z.lxor_spec; ring.
Qed.

(** ** the steps of a round on 16 bytes *)
Lemma list16 {A} (s : list A) : length s = 16%nat ->
  exists a0 a1 a2 a3 a4 a5 a6 a7 a8 a9 b0 b1 b2 b3 b4 b5, s = [a0; a1; a2; a3; a4; a5; a6; a7; a8; a9; b0; b1; b2; b3; b4; b5].
Proof.
  intros L. do 16 (destruct s as [|? s]; [discriminate L|]). destruct s; [|discriminate L]. repeat eexists.
Qed.
Lemma mix_column_range a b c d : byte_z a -> byte_z b -> byte_z c -> byte_z d -> Forall byte_z (mix_column a b c d).
Proof. intros A B C D. unfold mix_column, xor4. repeat first [apply Forall_cons|apply Forall_nil]; repeat first [assumption|apply xtime_range|apply lxor_byte]. Qed.
Lemma times_range a : byte_z a -> byte_z (times9 a) /\ byte_z (times11 a) /\ byte_z (times13 a) /\ byte_z (times14 a).
Proof.
  intros A. unfold times9, times11, times13, times14.
  assert (X := xtime_range). assert (L := lxor_byte). auto 20.
Qed.
Lemma inv_mix_column_range a b c d : byte_z a -> byte_z b -> byte_z c -> byte_z d -> Forall byte_z (inv_mix_column a b c d).
Proof.
  intros A B C D. destruct (times_range a A) as (? & ? & ? & ?), (times_range b B) as (? & ? & ? & ?), (times_range c C) as (? & ? & ? & ?), (times_range d D) as (? & ? & ? & ?).
  unfold inv_mix_column, xor4. repeat first [apply Forall_cons|apply Forall_nil]; repeat first [assumption|apply lxor_byte].
Qed.
Lemma nth_byte s i : Forall byte_z s -> byte_z (nth i s 0).
Proof.
  intros F. destruct (Nat.lt_ge_cases i (length s)) as [L|L].
  - exact (proj1 (Forall_forall _ _) F _ (nth_In _ _ L)).
  - rewrite nth_overflow by exact L. unfold byte_z. lia.
Qed.
Lemma map_state (f : Z -> Z) s : (forall x, byte_z x -> byte_z (f x)) -> state s -> state (map f s).
Proof. intros F (L & A). split; [rewrite map_length; exact L|]. apply Forall_map. eapply Forall_impl; [|exact A]. exact F. Qed.
Lemma permuted_state l s : length l = 16%nat -> state s -> state (map (fun i => nth i s 0) l).
Proof. intros L (_ & A). split; [rewrite map_length; exact L|]. apply Forall_map. apply Forall_forall. intros i _. apply nth_byte, A. Qed.
Lemma columns_state f s : (forall a b c d, length (f a b c d) = 4%nat) ->
  (forall a b c d, byte_z a -> byte_z b -> byte_z c -> byte_z d -> Forall byte_z (f a b c d)) -> state s -> state (columns f s).
Proof.
  intros L F (_ & A). unfold columns. split.
  - cbn [flat_map]. rewrite !app_length, !L. reflexivity.
  - cbn [flat_map]. rewrite !Forall_app. assert (N := fun i => nth_byte s i A). repeat split; auto.
Qed.
Lemma zxor_length a b : length a = length b -> length (zxor a b) = length a.
Proof. intros L. unfold zxor. rewrite map_length, combine_length. lia. Qed.
Lemma zxor_range a b : Forall byte_z a -> Forall byte_z b -> Forall byte_z (zxor a b).
Proof.
  intros A B. unfold zxor. apply Forall_map, Forall_forall. intros (x, y) I.
  apply lxor_byte; [exact (proj1 (Forall_forall _ _) A _ (in_combine_l _ _ _ _ I))|exact (proj1 (Forall_forall _ _) B _ (in_combine_r _ _ _ _ I))].
Qed.
Lemma zxor_state a b : state a -> state b -> state (zxor a b).
Proof. intros (La & A) (Lb & B). split; [rewrite zxor_length; lia|apply zxor_range; assumption]. Qed.
Lemma zxor_twice a k : length a = length k -> zxor (zxor a k) k = a.
Proof.
  revert k. induction a as [|x a IH]; intros [|y k] L; try discriminate L; [reflexivity|].
  unfold zxor in *. cbn [combine map fst snd]. rewrite Z.lxor_assoc, Z.lxor_nilpotent, Z.lxor_0_r. f_equal. apply IH. cbn in L. lia.
Qed.
Lemma map_inverse (f g : Z -> Z) s : (forall x, byte_z x -> g (f x) = x) -> Forall byte_z s -> map g (map f s) = s.
Proof. intros I A. rewrite map_map. rewrite <- (map_id s) at 2. apply map_ext_in. intros x J. apply I. exact (proj1 (Forall_forall _ _) A _ J). Qed.
Lemma inv_shift_shift s : length s = 16%nat -> inv_shift_rows (shift_rows s) = s.
Proof. intros L. destruct (list16 s L) as (a0 & a1 & a2 & a3 & a4 & a5 & a6 & a7 & a8 & a9 & b0 & b1 & b2 & b3 & b4 & b5 & ->). reflexivity. Qed.
Lemma shift_inv_shift s : length s = 16%nat -> shift_rows (inv_shift_rows s) = s.
Proof. intros L. destruct (list16 s L) as (a0 & a1 & a2 & a3 & a4 & a5 & a6 & a7 & a8 & a9 & b0 & b1 & b2 & b3 & b4 & b5 & ->). reflexivity. Qed.
Lemma columns_inverse f g s : (forall a b c d, length (f a b c d) = 4%nat) ->
  (forall a b c d, (let m := f a b c d in g (nth 0 m 0) (nth 1 m 0) (nth 2 m 0) (nth 3 m 0)) = [a; b; c; d]) ->
  length s = 16%nat -> columns g (columns f s) = s.
Proof.
  intros Lf I L. destruct (list16 s L) as (a0 & a1 & a2 & a3 & a4 & a5 & a6 & a7 & a8 & a9 & b0 & b1 & b2 & b3 & b4 & b5 & ->).
  assert (E : forall a b c d, exists w x y z, f a b c d = [w; x; y; z] /\ g w x y z = [a; b; c; d]).
  { intros a b c d. specialize (Lf a b c d). specialize (I a b c d). cbv zeta in I. destruct (f a b c d) as [|w [|x [|y [|z [|]]]]]; try discriminate Lf. exists w, x, y, z. split; [reflexivity|exact I]. }
  unfold columns at 2. cbn [flat_map nth Nat.add].
  destruct (E a0 a1 a2 a3) as (w0 & x0 & y0 & z0 & -> & G0), (E a4 a5 a6 a7) as (w1 & x1 & y1 & z1 & -> & G1), (E a8 a9 b0 b1) as (w2 & x2 & y2 & z2 & -> & G2), (E b2 b3 b4 b5) as (w3 & x3 & y3 & z3 & -> & G3).
  cbn [app]. unfold columns. cbn [flat_map nth Nat.add]. rewrite G0, G1, G2, G3. reflexivity.
Qed.
Lemma inv_mix_columns_mix s : length s = 16%nat -> inv_mix_columns (mix_columns s) = s.
Proof. apply columns_inverse; [reflexivity|exact inv_mix_mix]. Qed.
Lemma mix_columns_inv_mix s : length s = 16%nat -> mix_columns (inv_mix_columns s) = s.
Proof. apply columns_inverse; [reflexivity|exact mix_inv_mix]. Qed.

Lemma sub_state s : state s -> state (map sub_byte s). Proof. apply map_state, sub_byte_range. Qed.
Lemma inv_sub_state s : state s -> state (map inv_sub_byte s). Proof. apply map_state, inv_sub_byte_range. Qed.
Lemma shift_state s : state s -> state (shift_rows s). Proof. apply permuted_state. reflexivity. Qed.
Lemma inv_shift_state s : state s -> state (inv_shift_rows s). Proof. apply permuted_state. reflexivity. Qed.
Lemma mix_state s : state s -> state (mix_columns s). Proof. apply columns_state; [reflexivity|exact mix_column_range]. Qed.
Lemma inv_mix_state s : state s -> state (inv_mix_columns s). Proof. apply columns_state; [reflexivity|exact inv_mix_column_range]. Qed.

Lemma aes_round_state s k : state s -> state k -> state (aes_round s k).
Proof. intros S K. apply zxor_state; [|exact K]. apply mix_state, shift_state, sub_state, S. Qed.
Lemma inv_aes_round_state s k : state s -> state k -> state (inv_aes_round s k).
Proof. intros S K. apply inv_mix_state, zxor_state; [|exact K]. apply inv_sub_state, inv_shift_state, S. Qed.
Lemma fold_state f ks s : (forall s k, state s -> state k -> state (f s k)) -> Forall state ks -> state s -> state (fold_left f ks s).
Proof. intros F. revert s. induction ks as [|k ks IH]; intros s A S; [exact S|]. inversion A. cbn. apply IH; [assumption|]. apply F; assumption. Qed.

(** one round undone, seen from the middle of the next *)
Lemma unround s k : state s -> state k ->
  inv_aes_round (shift_rows (map sub_byte (aes_round s k))) k = shift_rows (map sub_byte s).
Proof.
  intros S K. pose proof (aes_round_state s k S K) as R. unfold inv_aes_round. rewrite inv_shift_shift by exact (proj1 (sub_state _ R)).
  rewrite (map_inverse sub_byte inv_sub_byte _ inv_sub_sub (proj2 R)). unfold aes_round.
  pose proof (shift_state _ (sub_state _ S)) as M. rewrite zxor_twice by (rewrite (proj1 (mix_state _ M)); symmetry; exact (proj1 K)).
  apply inv_mix_columns_mix, (proj1 M).
Qed.
Lemma fold_undone (ok : list Z -> Prop) (f g : list Z -> list Z -> list Z) (h : list Z -> list Z) :
  (forall s k, ok s -> ok k -> ok (f s k)) -> (forall s k, ok s -> ok k -> g (h (f s k)) k = h s) ->
  forall ks s, Forall ok ks -> ok s -> fold_left g (rev ks) (h (fold_left f ks s)) = h s.
Proof.
  intros Of U ks. induction ks as [|k ks IH]; intros s A S; [reflexivity|]. inversion A; subst. cbn [rev fold_left].
  rewrite fold_left_app. cbn [fold_left]. rewrite IH by (try apply Of; assumption). apply U; assumption.
Qed.
Lemma unrounds ks s : Forall state ks -> state s ->
  fold_left inv_aes_round (rev ks) (shift_rows (map sub_byte (fold_left aes_round ks s))) = shift_rows (map sub_byte s).
Proof. exact (fold_undone state aes_round inv_aes_round (fun s => shift_rows (map sub_byte s)) aes_round_state unround ks s). Qed.
Lemma reround s k : state s -> state k ->
  aes_round (map inv_sub_byte (inv_shift_rows (inv_aes_round s k))) k = map inv_sub_byte (inv_shift_rows s).
Proof.
  intros S K. pose proof (inv_aes_round_state s k S K) as R. unfold aes_round.
  rewrite (map_inverse inv_sub_byte sub_byte _ sub_inv_sub (proj2 (inv_shift_state _ R))). rewrite shift_inv_shift by exact (proj1 R).
  unfold inv_aes_round. pose proof (inv_sub_state _ (inv_shift_state _ S)) as M. rewrite mix_columns_inv_mix by exact (proj1 (zxor_state _ _ M K)).
  apply zxor_twice. rewrite (proj1 M). symmetry. exact (proj1 K).
Qed.
Lemma rerounds ks s : Forall state ks -> state s ->
  fold_left aes_round ks (map inv_sub_byte (inv_shift_rows (fold_left inv_aes_round (rev ks) s))) = map inv_sub_byte (inv_shift_rows s).
Proof.
  intros A S. rewrite <- (rev_involutive ks) at 1. exact (fold_undone state inv_aes_round aes_round (fun s => map inv_sub_byte (inv_shift_rows s)) inv_aes_round_state reround (rev ks) s (Forall_rev A) S).
Qed.
Lemma removelast_Forall {A} (P : A -> Prop) l : Forall P l -> Forall P (removelast l).
Proof. intros F. apply Forall_forall. intros x I. apply (proj1 (Forall_forall _ _) F). clear F. induction l as [|y l IH]; [exact I|]. cbn in I. destruct l; [destruct I|]. destruct I as [->|I]; [left; reflexivity|right; exact (IH I)]. Qed.
Lemma last_Forall {A} (P : A -> Prop) l d : l <> [] -> Forall P l -> P (last l d).
Proof. intros N F. rewrite (app_removelast_last d N) in F. apply Forall_app in F. destruct F as (_ & F). inversion F. assumption. Qed.
Lemma ends ks : Forall state ks -> ks <> [] -> state (hd [] ks) /\ state (last ks []) /\ Forall state (removelast (tl ks)).
Proof.
  intros F N. split; [destruct ks; [congruence|]; inversion F; assumption|]. split; [apply last_Forall; assumption|].
  apply removelast_Forall. destruct ks; [congruence|]. inversion F. assumption.
Qed.
Lemma decipher_encipher ks s : Forall state ks -> ks <> [] -> state s -> inv_aes_cipher ks (aes_cipher ks s) = s.
Proof.
  intros F N S. destruct (ends ks F N) as (Hd & La & Mi). unfold inv_aes_cipher, aes_cipher, aes_last, inv_aes_last.
  pose proof (zxor_state _ _ S Hd) as S0. pose proof (fold_state aes_round _ _ aes_round_state Mi S0) as S1.
  rewrite zxor_twice by (rewrite (proj1 (shift_state _ (sub_state _ S1))); symmetry; exact (proj1 La)).
  rewrite unrounds by assumption. rewrite inv_shift_shift by exact (proj1 (sub_state _ S0)).
  rewrite (map_inverse sub_byte inv_sub_byte _ inv_sub_sub (proj2 S0)). apply zxor_twice. rewrite (proj1 S). symmetry. exact (proj1 Hd).
Qed.
Lemma encipher_decipher ks s : Forall state ks -> ks <> [] -> state s -> aes_cipher ks (inv_aes_cipher ks s) = s.
Proof.
  intros F N S. destruct (ends ks F N) as (Hd & La & Mi). unfold inv_aes_cipher, aes_cipher, aes_last, inv_aes_last.
  pose proof (zxor_state _ _ S La) as S0.
  assert (S1 : state (fold_left inv_aes_round (rev (removelast (tl ks))) (zxor s (last ks [])))) by (apply fold_state; [exact inv_aes_round_state|apply Forall_rev, Mi|exact S0]).
  rewrite zxor_twice by (rewrite (proj1 (inv_sub_state _ (inv_shift_state _ S1))); symmetry; exact (proj1 Hd)).
  rewrite rerounds by assumption. rewrite (map_inverse inv_sub_byte sub_byte _ sub_inv_sub (proj2 (inv_shift_state _ S0))).
  rewrite shift_inv_shift by exact (proj1 S0). apply zxor_twice. rewrite (proj1 S). symmetry. exact (proj1 La).
Qed.
Lemma cipher_state ks s : Forall state ks -> ks <> [] -> state s -> state (aes_cipher ks s).
Proof.
  intros F N S. destruct (ends ks F N) as (Hd & La & Mi). unfold aes_cipher, aes_last. apply zxor_state; [|exact La].
  apply shift_state, sub_state, fold_state; [exact aes_round_state|exact Mi|]. apply zxor_state; assumption.
Qed.
Lemma inv_cipher_state ks s : Forall state ks -> ks <> [] -> state s -> state (inv_aes_cipher ks s).
Proof.
  intros F N S. destruct (ends ks F N) as (Hd & La & Mi). unfold inv_aes_cipher, inv_aes_last. apply zxor_state; [|exact Hd].
  apply inv_sub_state, inv_shift_state, fold_state; [exact inv_aes_round_state|apply Forall_rev, Mi|]. apply zxor_state; assumption.
Qed.

(** ** blocks *)
Lemma blocks_exact {A} n m : (0 < n)%nat -> forall fuel (l : list A), length l = (n * m)%nat -> (m <= fuel)%nat ->
  Forall (fun b => length b = n) (blocks_of n fuel l) /\ concat (blocks_of n fuel l) = l /\ length (blocks_of n fuel l) = m.
Proof.
  intros Hn. induction m as [|m IH]; intros fuel l L F.
  - rewrite Nat.mul_0_r in L. destruct l; [|discriminate L]. destruct fuel; cbn; auto.
  - destruct fuel as [|fuel]; [lia|]. destruct l as [|x l]; [cbn in L; lia|]. remember (x :: l) as l' eqn:E. cbn [blocks_of]. destruct l' as [|y l']; [discriminate E|]. clear E.
    destruct (IH fuel (skipn n (y :: l'))) as (B & C & D); [rewrite skipn_length; lia|lia|]. split; [|split].
    + apply Forall_cons; [|exact B]. rewrite firstn_length. lia.
    + cbn [concat]. rewrite C. apply firstn_skipn.
    + cbn [length]. rewrite D. reflexivity.
Qed.
Lemma blocks_concat {A} n : (0 < n)%nat -> forall (bs : list (list A)) fuel, Forall (fun b => length b = n) bs -> (length bs <= fuel)%nat ->
  blocks_of n fuel (concat bs) = bs.
Proof.
  intros Hn bs. induction bs as [|b bs IH]; intros fuel F L; [destruct fuel; reflexivity|]. destruct fuel as [|fuel]; [cbn in L; lia|]. inversion F as [|? ? B F']; subst.
  cbn [concat blocks_of]. destruct (b ++ concat bs) as [|y t] eqn:E; [apply app_eq_nil in E; destruct E as (-> & _); cbn in Hn; lia|]. rewrite <- E.
  rewrite firstn_app, Nat.sub_diag, firstn_all, firstn_O, app_nil_r, skipn_app, skipn_all, Nat.sub_diag. cbn [app skipn]. rewrite IH; [reflexivity|exact F'|cbn in L; lia].
Qed.
Lemma blocks_Forall {A} (P : A -> Prop) n fuel l : Forall P l -> Forall (Forall P) (blocks_of n fuel l).
Proof.
  revert l. induction fuel as [|fuel IH]; intros l F; [constructor|]. cbn [blocks_of]. destruct l as [|y l]; [constructor|]. apply Forall_cons.
  - apply Forall_forall. intros x I. apply (proj1 (Forall_forall _ _) F). rewrite <- (firstn_skipn n). apply in_or_app. left. exact I.
  - apply IH. apply Forall_forall. intros x I. apply (proj1 (Forall_forall _ _) F). rewrite <- (firstn_skipn n). apply in_or_app. right. exact I.
Qed.

(** ** the key schedule gives Nr+1 round keys *)
Definition word (w : list Z) : Prop := length w = 4%nat /\ Forall byte_z w.
Lemma zxor_word a b : word a -> word b -> word (zxor a b).
Proof. intros (La & A) (Lb & B). split; [rewrite zxor_length; lia|apply zxor_range; assumption]. Qed.
Lemma sub_word w : word w -> word (map sub_byte w).
Proof. intros (L & A). split; [rewrite map_length; exact L|]. apply Forall_map. eapply Forall_impl; [|exact A]. exact sub_byte_range. Qed.
Lemma rot_word w : word w -> word (skipn 1 w ++ firstn 1 w).
Proof. intros (L & A). destruct w as [|a [|b [|c [|d [|]]]]]; try discriminate L. cbn [skipn firstn app]. split; [reflexivity|]. inversion A as [|? ? Pa A1]; subst. apply Forall_app with (l1 := [b; c; d]). split; [exact A1|]. repeat constructor; apply Pa. Qed.
Lemma expand_words nk : forall n i rcon recent, byte_z rcon -> recent <> [] -> Forall word recent ->
  Forall word (expand_key nk n i rcon recent) /\ length (expand_key nk n i rcon recent) = n.
Proof.
  intros n. induction n as [|n IH]; intros i rcon recent R N F; [split; [constructor|reflexivity]|]. cbn [expand_key].
  set (temp := last recent []). set (temp' := if (i mod nk =? 0)%nat then _ else _). set (w := zxor (hd [] recent) temp').
  assert (Wt : word temp) by (apply last_Forall; assumption).
  assert (Wr : word [rcon; 0; 0; 0]). { split; [reflexivity|]. repeat apply Forall_cons; try apply Forall_nil; [exact R|unfold byte_z; lia..]. }
  assert (Wt' : word temp'). { unfold temp'. destruct (i mod nk =? 0)%nat; [apply zxor_word; [apply sub_word, rot_word, Wt|exact Wr]|]. destruct ((6 <? nk)%nat && (i mod nk =? 4)%nat); [apply sub_word, Wt|exact Wt]. }
  assert (Ww : word w). { apply zxor_word; [|exact Wt']. destruct recent; [congruence|]. inversion F. assumption. }
  clearbody w. destruct (IH (S i) (if (i mod nk =? 0)%nat then xtime rcon else rcon) (skipn 1 recent ++ [w])) as (A & B).
  - destruct (i mod nk =? 0)%nat; [apply xtime_range|]; exact R.
  - destruct (skipn 1 recent); discriminate.
  - apply Forall_app. split; [|repeat constructor; apply Ww]. destruct recent; [constructor|]. inversion F. assumption.
  - split; [apply Forall_cons; assumption|]. cbn [length]. rewrite B. reflexivity.
Qed.
Lemma concat_length4 {A} n (ws : list (list A)) : Forall (fun w => length w = n) ws -> length (concat ws) = (n * length ws)%nat.
Proof. induction 1 as [|w ws L _ IH]; cbn [concat length]; [lia|]. rewrite app_length, L, IH. lia. Qed.
Lemma b2z_byte b : byte_z (b2z b). Proof. pose proof (b2z_range b). unfold byte_z. lia. Qed.
Lemma bytes_z (l : bytes) : Forall byte_z (map b2z l). Proof. apply Forall_map, Forall_forall. intros b _. apply b2z_byte. Qed.
Lemma round_keys_ok key nk : (0 < nk)%nat -> length key = (4 * nk)%nat -> Forall state (round_keys key) /\ length (round_keys key) = (nk + 7)%nat.
Proof.
  intros Hk L. unfold round_keys. set (w := blocks_of 4 (length key) (map b2z key)).
  destruct (blocks_exact 4 nk ltac:(lia) (length key) (map b2z key) ltac:(rewrite map_length; exact L) ltac:(lia)) as (B & _ & D). fold w in B, D.
  pose proof (blocks_Forall byte_z 4 (length key) _ (bytes_z key)) as Z. fold w in Z. clearbody w. rewrite D.
  assert (W : Forall word w). { apply Forall_forall. intros x I. split; [exact (proj1 (Forall_forall _ _) B _ I)|exact (proj1 (Forall_forall _ _) Z _ I)]. }
  destruct (expand_words nk (4 * (nk + 7) - nk) nk 1 w ltac:(unfold byte_z; lia) ltac:(intros ->; cbn in D; lia) W) as (E & F).
  set (all := w ++ expand_key nk (4 * (nk + 7) - nk) nk 1 w). assert (A : Forall word all) by (apply Forall_app; split; assumption).
  assert (La : length all = (4 * (nk + 7))%nat) by (unfold all; rewrite app_length, F, D; lia). clearbody all.
  assert (Lc : length (concat all) = (16 * (nk + 7))%nat) by (rewrite (concat_length4 4); [lia|]; eapply Forall_impl; [|exact A]; intros x X; apply X).
  destruct (blocks_exact 16 (nk + 7) ltac:(lia) (nk + 7)%nat (concat all) Lc ltac:(lia)) as (G & _ & K). split; [|exact K].
  assert (Zc : Forall byte_z (concat all)). { apply Forall_concat. eapply Forall_impl; [|exact A]. intros x X. apply X. }
  pose proof (blocks_Forall byte_z 16 (nk + 7) _ Zc) as Zb. apply Forall_forall. intros x I. split; [exact (proj1 (Forall_forall _ _) G _ I)|exact (proj1 (Forall_forall _ _) Zb _ I)].
Qed.

(** ** ECB *)
Definition block_fun (f : list Z -> list Z) (b : bytes) : bytes := map z2b (f (map b2z b)).
Lemma block_state (b : bytes) : length b = 16%nat -> state (map b2z b).
Proof. intros L. split; [rewrite map_length; exact L|apply bytes_z]. Qed.
Lemma map_b2z_z2b s : Forall byte_z s -> map b2z (map z2b s) = s.
Proof. intros F. rewrite map_map. rewrite <- (map_id s) at 2. apply map_ext_in. intros x I. rewrite b2z_z2b. apply Z.mod_small. exact (proj1 (Forall_forall _ _) F _ I). Qed.
Lemma map_z2b_b2z l : map z2b (map b2z l) = l.
Proof. rewrite map_map. rewrite <- (map_id l) at 2. apply map_ext. intros x. apply z2b_b2z. Qed.
Lemma block_fun_length f b : (forall s, state s -> state (f s)) -> length b = 16%nat -> length (block_fun f b) = 16%nat.
Proof. intros F L. unfold block_fun. rewrite map_length. apply F, block_state, L. Qed.
Lemma block_fun_inverse f g b : (forall s, state s -> state (f s)) -> (forall s, state s -> g (f s) = s) -> length b = 16%nat -> block_fun g (block_fun f b) = b.
Proof.
  intros F I L. unfold block_fun. rewrite map_b2z_z2b by exact (proj2 (F _ (block_state b L))). rewrite I by exact (block_state b L). apply map_z2b_b2z.
Qed.
Lemma ecb_ok f key data : (forall s, state s -> state (f s)) -> zlen key = 16 \/ zlen key = 24 \/ zlen key = 32 -> zlen data mod 16 = 0 ->
  exists bs, Forall (fun b => length b = 16%nat) bs /\ data = concat bs /\ ecb f key data = Ok (concat (map (block_fun f) bs)) /\
    length (concat (map (block_fun f) bs)) = length data.
Proof.
  intros F K D. exists (blocks_of 16 (length data) data). assert (M : length data = (16 * (length data / 16))%nat).
  { pose proof (Nat.div_mod_eq (length data) 16). unfold zlen in D. assert (length data mod 16 = 0)%nat; [|lia]. change 16 with (Z.of_nat 16) in D. rewrite <- Nat2Z.inj_mod in D. lia. }
  destruct (blocks_exact 16 (length data / 16) ltac:(lia) (length data) data M ltac:(lia)) as (B & C & E).
  split; [exact B|]. split; [symmetry; exact C|]. split.
  - unfold ecb. replace ((zlen key =? 16) || (zlen key =? 24) || (zlen key =? 32)) with true by lia. cbn [negb]. rewrite D. reflexivity.
  - rewrite (concat_length4 16); [rewrite map_length; unfold bytes in *; rewrite E; lia|]. apply Forall_map. eapply Forall_impl; [|exact B]. intros b. apply block_fun_length, F.
Qed.
Lemma ecb_inverse f g key data : (forall s, state s -> state (f s)) -> (forall s, state s -> state (g s)) -> (forall s, state s -> g (f s) = s) ->
  zlen key = 16 \/ zlen key = 24 \/ zlen key = 32 -> zlen data mod 16 = 0 ->
  exists e, ecb f key data = Ok e /\ length e = length data /\ ecb g key e = Ok data.
Proof.
  intros F G I K D. destruct (ecb_ok f key data F K D) as (bs & B & C & E & L). exists (concat (map (block_fun f) bs)). split; [exact E|]. split; [exact L|].
  assert (B' : Forall (fun b => length b = 16%nat) (map (block_fun f) bs)) by (apply Forall_map; eapply Forall_impl; [|exact B]; intros b; apply block_fun_length, F).
  unfold ecb. replace ((zlen key =? 16) || (zlen key =? 24) || (zlen key =? 32)) with true by lia. cbn [negb]. unfold zlen. rewrite L. fold (zlen data). rewrite D. cbn [Z.eqb negb].
  rewrite blocks_concat; [|lia|exact B'|]. 2:{ rewrite map_length. rewrite <- L, (concat_length4 16) by exact B'. rewrite map_length. lia. }
  apply (f_equal Ok). rewrite map_map. rewrite C. apply (f_equal (@concat byte)). rewrite <- (map_id bs) at 2. apply map_ext_in. intros b Ib.
  apply (block_fun_inverse f g b F I). exact (proj1 (Forall_forall _ _) B _ Ib).
Qed.
Lemma key_words (key : bytes) : zlen key = 16 \/ zlen key = 24 \/ zlen key = 32 -> exists nk, (0 < nk)%nat /\ length key = (4 * nk)%nat.
Proof. unfold zlen. intros [E|[E|E]]; [exists 4%nat|exists 6%nat|exists 8%nat]; lia. Qed.
Lemma keys_ok key : zlen key = 16 \/ zlen key = 24 \/ zlen key = 32 -> Forall state (round_keys key) /\ round_keys key <> [].
Proof.
  intros K. destruct (key_words key K) as (nk & P & L). destruct (round_keys_ok key nk P L) as (A & B). split; [exact A|]. intros E. rewrite E in B. cbn in B. lia.
Qed.
Lemma AES_decrypt_encrypt key data : zlen key = 16 \/ zlen key = 24 \/ zlen key = 32 -> zlen data mod 16 = 0 ->
  exists e, AES_encrypt key data = Ok e /\ length e = length data /\ AES_decrypt key e = Ok data.
Proof.
  intros K D. destruct (keys_ok key K) as (A & N). unfold AES_encrypt, AES_decrypt. apply ecb_inverse; [intros s S; apply cipher_state; assumption|intros s S; apply inv_cipher_state; assumption|intros s S; apply decipher_encipher; assumption|exact K|exact D].
Qed.
Lemma AES_encrypt_decrypt key data : zlen key = 16 \/ zlen key = 24 \/ zlen key = 32 -> zlen data mod 16 = 0 ->
  exists e, AES_decrypt key data = Ok e /\ length e = length data /\ AES_encrypt key e = Ok data.
Proof.
  intros K D. destruct (keys_ok key K) as (A & N). unfold AES_encrypt, AES_decrypt. apply ecb_inverse; [intros s S; apply inv_cipher_state; assumption|intros s S; apply cipher_state; assumption|intros s S; apply encipher_decipher; assumption|exact K|exact D].
Qed.
