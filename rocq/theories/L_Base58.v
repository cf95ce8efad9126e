(** * L_Base58: positional digits and Base58 *)
From Coq Require Import Lia ZifyBool ZifyNat ZifyN.
From Verif Require Import M_Py M_Hash M_Base58 L_Bytes.
Ltac Zify.zify_post_hook ::= Z.div_mod_to_equations.

(** value of digits, least significant first *)
Fixpoint val (base : Z) (l : list Z) : Z := match l with [] => 0 | d :: r => d + base * val base r end.
Definition digit_ok (base d : Z) := 0 <= d < base.
(** the most significant digit is not zero *)
Definition no_top_zero (l : list Z) := l <> [] -> last l 0 <> 0.

Lemma val_app base a b : val base (a ++ b) = val base a + base ^ zlen a * val base b.
Proof.
  induction a as [|x a IH]; cbn [app val]; [change (zlen (@nil Z)) with 0; lia|].
  rewrite IH, zlen_cons, Z.pow_add_r by (pose proof (zlen_nonneg a); lia). rewrite Z.pow_1_r. ring.
Qed.
Lemma val_bounds base l : 1 < base -> Forall (digit_ok base) l -> 0 <= val base l < base ^ zlen l.
Proof.
  intros B. induction 1 as [|x l Hx Hl IH]; cbn [val]; [cbn; lia|].
  rewrite zlen_cons, Z.pow_add_r, Z.pow_1_r by (pose proof (zlen_nonneg l); lia). unfold digit_ok in Hx. nia.
Qed.
Lemma val_pos base l : 1 < base -> Forall (digit_ok base) l -> no_top_zero l -> l <> [] -> base ^ (zlen l - 1) <= val base l.
Proof.
  intros B F N E. destruct l as [|x l'] using rev_ind; [congruence|]. clear IHl'.
  apply Forall_app in F. destruct F as [F1 F2]. inversion F2 as [|? ? Hx _]; subst. specialize (N E). rewrite last_last in N.
  rewrite val_app, zlen_app. cbn [val]. change (zlen [x]) with 1. replace (zlen l' + 1 - 1) with (zlen l') by lia.
  pose proof (val_bounds base l' B F1). unfold digit_ok in Hx. assert (0 < base ^ zlen l') by (apply Z.pow_pos_nonneg; [lia|apply zlen_nonneg]). nia.
Qed.
Lemma val_zero base l : 1 < base -> Forall (digit_ok base) l -> no_top_zero l -> val base l = 0 -> l = [].
Proof.
  intros B F N V. destruct l as [|x l]; [reflexivity|]. exfalso.
  pose proof (val_pos base (x :: l) B F N ltac:(discriminate)).
  assert (0 < base ^ (zlen (x :: l) - 1)). { apply Z.pow_pos_nonneg; [lia|]. rewrite zlen_cons. pose proof (zlen_nonneg l). lia. } lia.
Qed.

Lemma no_top_zero_tl x l : no_top_zero (x :: l) -> no_top_zero l.
Proof. unfold no_top_zero. intros H E. specialize (H ltac:(discriminate)). destruct l; [congruence|exact H]. Qed.

Lemma loop_unique base l : forall fuel, 1 < base -> Forall (digit_ok base) l -> no_top_zero l ->
  (length l <= fuel)%nat -> divmod_loop base fuel (val base l) = l.
Proof.
  induction l as [|x l IH]; intros fuel B F N L.
  - cbn [val]. destruct fuel; reflexivity.
  - destruct fuel as [|k]; [cbn in L; lia|]. cbn [divmod_loop].
    destruct (val base (x :: l) =? 0) eqn:E.
    + exfalso. assert (x :: l = []); [|discriminate]. apply (val_zero base); auto; lia.
    + inversion F as [|? ? Hx Hl]; subst. unfold digit_ok in Hx. cbn [val].
      replace (x + base * val base l) with (val base l * base + x) by lia.
      rewrite Z.div_add_l by lia. rewrite (Z.div_small x base) by lia. rewrite Z.add_0_r.
      rewrite Z.add_comm, Z.mod_add, Z.mod_small by lia. f_equal. apply IH; auto; [eapply no_top_zero_tl; eauto|cbn in L; lia].
Qed.

Lemma digits_unique base l : 1 < base -> Forall (digit_ok base) l -> no_top_zero l -> divmod_digits base (val base l) = l.
Proof.
  intros B F N. apply loop_unique; auto. destruct l as [|x l]; [cbn; lia|].
  pose proof (val_pos base (x :: l) B F N ltac:(discriminate)) as P.
  pose proof (zlen_nonneg l). rewrite zlen_cons in P. replace (1 + zlen l - 1) with (zlen l) in P by lia.
  assert (2 ^ zlen l <= base ^ zlen l) by (apply Z.pow_le_mono_l; lia).
  assert (0 < 2 ^ zlen l) by (apply Z.pow_pos_nonneg; lia).
  unfold bit_length. replace (val base (x :: l) =? 0) with false by lia. rewrite Z.abs_eq by lia.
  assert (zlen l <= Z.log2 (val base (x :: l))).
  { rewrite <- (Z.log2_pow2 (zlen l)) by lia. apply Z.log2_le_mono. lia. }
  unfold zlen in *. cbn [length]. lia.
Qed.

Lemma loop_ok base : forall fuel i, 1 < base -> 0 <= i < 2 ^ Z.of_nat fuel ->
  Forall (digit_ok base) (divmod_loop base fuel i) /\ no_top_zero (divmod_loop base fuel i) /\ val base (divmod_loop base fuel i) = i.
Proof.
  induction fuel as [|k IH]; intros i B I; cbn [divmod_loop].
  - cbn in I. split; [constructor|]. split; [unfold no_top_zero; congruence|cbn; lia].
  - destruct (i =? 0) eqn:E; [split; [constructor|split; [unfold no_top_zero; congruence|cbn; lia]]|].
    assert (Q : 0 <= i / base < 2 ^ Z.of_nat k).
    { rewrite Nat2Z.inj_succ, Z.pow_succ_r in I by lia. split; [apply Z.div_pos; lia|]. apply Z.div_lt_upper_bound; [lia|].
      assert (0 < 2 ^ Z.of_nat k) by (apply Z.pow_pos_nonneg; lia). nia. }
    destruct (IH _ B Q) as (F & N & V). pose proof (Z.mod_pos_bound i base ltac:(lia)).
    split; [constructor; auto; unfold digit_ok; lia|]. split.
    + intros _. destruct (divmod_loop base k (i / base)) as [|y r] eqn:D; [|exact (N ltac:(discriminate))].
      cbn [last]. cbn [val] in V. pose proof (Z.div_mod i base ltac:(lia)). nia.
    + cbn [val]. rewrite V. pose proof (Z.div_mod i base ltac:(lia)). lia.
Qed.
Lemma digits_ok base i : 1 < base -> 0 <= i ->
  Forall (digit_ok base) (divmod_digits base i) /\ no_top_zero (divmod_digits base i) /\ val base (divmod_digits base i) = i.
Proof.
  intros B I. apply loop_ok; auto. split; [exact I|]. unfold bit_length. destruct (i =? 0) eqn:E; [cbn; lia|].
  rewrite Z.abs_eq by lia. rewrite Z2Nat.id by (pose proof (Z.log2_nonneg i); lia).
  pose proof (Z.log2_spec i ltac:(lia)). replace (Z.log2 i + 1) with (Z.succ (Z.log2 i)) by lia. lia.
Qed.

(** ** stripping *)
Lemma lstrip_spec c l : exists k, l = repeat c k ++ lstrip c l /\ (forall r, lstrip c l <> c :: r) /\ (k = length l - length (lstrip c l))%nat.
Proof.
  induction l as [|x l IH]; cbn [lstrip]; [exists 0%nat; repeat split; intros r H; discriminate|].
  destruct (Byte.eqb x c) eqn:E.
  - apply Byte.byte_dec_bl in E. subst x. destruct IH as (k & E & N & K). exists (S k). split; [cbn; congruence|]. split; [exact N|].
    assert (length l = k + length (lstrip c l))%nat by (rewrite E at 1; rewrite app_length, repeat_length; reflexivity). cbn [length]. lia.
  - exists 0%nat. split; [reflexivity|]. split; [|lia]. intros r H.
    assert (Byte.eqb x c = true) by (apply Byte.byte_dec_lb; congruence). congruence.
Qed.
Lemma lstrip_repeat c k l : (forall r, l <> c :: r) -> lstrip c (repeat c k ++ l) = l.
Proof.
  intros N. induction k as [|k IH]; cbn [repeat app lstrip].
  - destruct l as [|x l]; [reflexivity|]. cbn [lstrip]. destruct (Byte.eqb x c) eqn:E; [|reflexivity].
    apply Byte.byte_dec_bl in E. subst x. exfalso. exact (N l eq_refl).
  - rewrite (Byte.byte_dec_lb (x:=c) (y:=c) eq_refl). exact IH.
Qed.

(** ** the alphabet *)
Lemma alpha_index_alpha d : 0 <= d < 58 -> alpha_index (alpha d) = Some d.
Proof.
  intros H. assert (C : forallb (fun d => match alpha_index (alpha (Z.of_nat d)) with Some e => e =? Z.of_nat d | None => false end) (seq 0 58) = true)
    by (vm_compute; reflexivity).
  rewrite forallb_forall in C. specialize (C (Z.to_nat d)). rewrite in_seq in C. specialize (C ltac:(lia)). rewrite Z2Nat.id in C by lia.
  destruct (alpha_index (alpha d)) as [e|]; [|discriminate]. f_equal. lia.
Qed.
Lemma index_from_spec l : forall k c d, index_from k l c = Some d -> k <= d < k + zlen l /\ nth (Z.to_nat (d - k)) l x00 = c.
Proof.
  induction l as [|x l IH]; intros k c d H; cbn [index_from] in H; [discriminate|].
  rewrite zlen_cons. pose proof (zlen_nonneg l). destruct (Byte.eqb x c) eqn:E.
  - assert (k = d) by congruence. subst k. apply Byte.byte_dec_bl in E. split; [lia|]. rewrite Z.sub_diag. exact E.
  - destruct (IH _ _ _ H) as [B N]. split; [lia|]. replace (Z.to_nat (d - k)) with (S (Z.to_nat (d - (k + 1)))) by lia. exact N.
Qed.
Lemma alpha_index_inv c d : alpha_index c = Some d -> 0 <= d < 58 /\ alpha d = c.
Proof.
  intros H. apply index_from_spec in H. destruct H as [B N]. change (zlen b58_alphabet) with 58 in B. rewrite Z.sub_0_r in N. split; [lia|exact N].
Qed.
Lemma alpha_one d : 0 <= d < 58 -> alpha d = one_char -> d = 0.
Proof.
  intros B H. pose proof (alpha_index_alpha d B) as I. rewrite H in I. vm_compute in I. congruence.
Qed.
Lemma alpha_zero : alpha 0 = one_char.
Proof. reflexivity. Qed.

(** ** big-endian numbers *)
Lemma le2z_val l : le2z l = val 256 (map b2z l).
Proof. induction l as [|x l IH]; cbn; [reflexivity|]. rewrite IH. reflexivity. Qed.

Lemma b58_acc_spec v : b58_acc v = le2z (rev v).
Proof.
  unfold b58_acc. assert (G : forall l p acc, snd (fold_left (fun st c => let '(p, acc) := st in (Z.shiftl p 8, acc + p * b2z c)) l (p, acc)) = acc + p * le2z l).
  { induction l as [|x l IH]; intros p acc; cbn [fold_left le2z]; [cbn; lia|]. rewrite IH, Z.shiftl_mul_pow2 by lia. change (2 ^ 8) with 256. ring. }
  rewrite G. lia.
Qed.
Lemma b58encode_int_spec i : b58encode_int i = map alpha (rev (divmod_digits 58 i)).
Proof.
  unfold b58encode_int. assert (G : forall l s, fold_left (fun string idx => alpha idx :: string) l s = map alpha (rev l) ++ s).
  { induction l as [|x l IH]; intros s; cbn [fold_left rev]; [reflexivity|]. rewrite IH, map_app, <- app_assoc. reflexivity. }
  rewrite G, app_nil_r. reflexivity.
Qed.

Lemma decode_int_spec v : forall a, b58decode_int_from a v =
  match fold_right (fun c o => match alpha_index c, o with Some d, Some l => Some (d :: l) | _, _ => None end) (Some []) v with
  | Some ds => Ok (a * 58 ^ zlen ds + val 58 (rev ds))
  | None => Raise ValueError
  end.
Proof.
  induction v as [|c v IH]; intros a; cbn [b58decode_int_from fold_right].
  - cbn. f_equal. lia.
  - destruct (alpha_index c) as [d|]; [|reflexivity]. rewrite IH. destruct (fold_right _ _ _) as [ds|]; [|reflexivity].
    f_equal. cbn [rev]. rewrite val_app, zlen_cons, zlen_rev, Z.pow_add_r by (pose proof (zlen_nonneg ds); lia). cbn [val]. ring.
Qed.
Lemma fold_index_alpha ds : Forall (digit_ok 58) ds ->
  fold_right (fun c o => match alpha_index c, o with Some d, Some l => Some (d :: l) | _, _ => None end) (Some []) (map alpha ds) = Some ds.
Proof.
  induction 1 as [|d ds Hd Hds IH]; cbn [map fold_right]; [reflexivity|]. rewrite IH, alpha_index_alpha by exact Hd. reflexivity.
Qed.
Lemma fold_index_inv v : forall ds, fold_right (fun c o => match alpha_index c, o with Some d, Some l => Some (d :: l) | _, _ => None end) (Some []) v = Some ds ->
  Forall (digit_ok 58) ds /\ v = map alpha ds.
Proof.
  induction v as [|c v IH]; intros ds H; cbn [fold_right] in H.
  - assert (ds = []) by congruence. subst. split; [constructor|reflexivity].
  - destruct (alpha_index c) as [d|] eqn:E; [|discriminate]. destruct (fold_right _ _ v) as [r|]; [|discriminate].
    assert (ds = d :: r) by congruence. subst. destruct (IH _ eq_refl) as [F ->]. apply alpha_index_inv in E. destruct E as [B <-].
    split; [constructor; assumption|reflexivity].
Qed.

Lemma no_top_rev ds : no_top_zero (rev ds) <-> (forall r, ds <> 0 :: r).
Proof.
  unfold no_top_zero. destruct ds as [|d ds]; cbn [rev]; [split; [intros _ r H; discriminate|intros _ H; exfalso; apply H; reflexivity]|].
  rewrite last_last. split; [intros H r E; apply H; [destruct (rev ds); discriminate|congruence]|]. intros H _ E. apply (H ds). congruence.
Qed.
Lemma no_top_rev' ds : no_top_zero ds <-> (forall r, rev ds <> 0 :: r).
Proof. rewrite <- no_top_rev, rev_involutive. reflexivity. Qed.

(** decoding, in terms of digits: [zs] ones followed by the digits of a number *)
Lemma decode_shape k ds : Forall (digit_ok 58) ds -> (forall r, ds <> 0 :: r) ->
  b58decode_bytes (repeat one_char k ++ map alpha ds) = Ok (repeat x00 k ++ map z2b (rev (divmod_digits 256 (val 58 (rev ds))))).
Proof.
  intros F N. unfold b58decode_bytes. assert (NL : forall r, map alpha ds <> one_char :: r).
  { intros r E. destruct ds as [|d ds]; [discriminate|]. cbn [map] in E. inversion F; subst. apply (N ds). f_equal. apply alpha_one; [assumption|congruence]. }
  rewrite lstrip_repeat by exact NL. rewrite decode_int_spec, fold_index_alpha by exact F. cbn [rbind].
  rewrite app_length, repeat_length, Nat.add_sub. do 2 f_equal.
Qed.
Lemma text_shape s d : b58decode_bytes s = Ok d -> exists k ds, s = repeat one_char k ++ map alpha ds /\ Forall (digit_ok 58) ds /\ (forall r, ds <> 0 :: r).
Proof.
  intros H. unfold b58decode_bytes in H. destruct (lstrip_spec one_char s) as (k & E & N & _).
  rewrite decode_int_spec in H. destruct (fold_right _ _ _) as [ds|] eqn:Fd in H; [|discriminate].
  apply fold_index_inv in Fd. destruct Fd as [F M]. exists k, ds. rewrite <- M. split; [exact E|]. split; [exact F|].
  intros r ->. apply (N (map alpha r)). rewrite M. reflexivity.
Qed.
Lemma encode_shape k w : (forall r, w <> x00 :: r) ->
  b58encode (repeat x00 k ++ w) = repeat one_char k ++ map alpha (rev (divmod_digits 58 (le2z (rev w)))).
Proof.
  intros N. unfold b58encode. rewrite lstrip_repeat by exact N. rewrite app_length, repeat_length, Nat.add_sub, b58_acc_spec, b58encode_int_spec. reflexivity.
Qed.

Lemma bytes_no_zero w : (forall r, w <> x00 :: r) -> no_top_zero (map b2z (rev w)).
Proof.
  intros N. rewrite map_rev. apply no_top_rev. intros r E. destruct w as [|x w]; [discriminate|]. cbn in E. injection E as E _.
  apply (N w). f_equal. apply b2z_inj. rewrite E. reflexivity.
Qed.
Lemma bytes_digits w : (forall r, w <> x00 :: r) -> divmod_digits 256 (le2z (rev w)) = map b2z (rev w).
Proof.
  intros N. rewrite le2z_val. apply digits_unique; [lia| |apply bytes_no_zero, N].
  apply Forall_map, Forall_forall. intros x _. apply b2z_range.
Qed.

Theorem b58_roundtrip v : b58decode_bytes (b58encode v) = Ok v.
Proof.
  destruct (lstrip_spec x00 v) as (k & E & N & _). set (w := lstrip x00 v) in *. rewrite E at 1. rewrite encode_shape by exact N.
  destruct (digits_ok 58 (le2z (rev w)) ltac:(lia) ltac:(apply le2z_bound)) as (F & T & V).
  rewrite decode_shape; [|apply Forall_rev, F|apply no_top_rev', T].
  rewrite rev_involutive, V, bytes_digits by exact N. rewrite <- map_rev, rev_involutive, map_z2b_b2z, <- E. reflexivity.
Qed.

Theorem b58_onto s d : b58decode_bytes s = Ok d -> b58encode d = s.
Proof.
  intros H. destruct (text_shape _ _ H) as (k & ds & -> & F & N). rewrite decode_shape in H by assumption.
  assert (d = repeat x00 k ++ map z2b (rev (divmod_digits 256 (val 58 (rev ds))))) as -> by congruence. clear H.
  pose proof (val_bounds 58 (rev ds) ltac:(lia) ltac:(apply Forall_rev, F)) as B.
  destruct (digits_ok 256 (val 58 (rev ds)) ltac:(lia) ltac:(lia)) as (F2 & T & V).
  set (e := divmod_digits 256 _) in *. assert (R : map b2z (map z2b e) = e) by (apply map_b2z_z2b; exact F2).
  rewrite encode_shape.
  - rewrite <- map_rev, rev_involutive, le2z_val, R, V, digits_unique; [|lia|apply Forall_rev, F|apply no_top_rev; exact N].
    rewrite rev_involutive. reflexivity.
  - intros r E. rewrite no_top_rev' in T. destruct (rev e) as [|x e'] eqn:Er; [discriminate|]. cbn in E. injection E as E _.
    apply (T e'). f_equal. assert (digit_ok 256 x). { rewrite Forall_forall in F2. apply F2, in_rev. rewrite Er. left. reflexivity. }
    rewrite <- (z2b_small x) by assumption. rewrite E. reflexivity.
Qed.

Lemma b58_decodes_iff s : (exists d, b58decode_bytes s = Ok d) <-> Forall (fun c => In c b58_alphabet) s.
Proof.
  split.
  - intros [d H]. destruct (text_shape _ _ H) as (k & ds & -> & F & _). apply Forall_app. split.
    + apply Forall_forall. intros x Hx. apply repeat_spec in Hx. subst. left. reflexivity.
    + apply Forall_map, Forall_forall. intros x Hx. rewrite Forall_forall in F. specialize (F x Hx). unfold digit_ok in F. unfold alpha. apply nth_In. change (length b58_alphabet) with 58%nat. lia.
  - intros F. unfold b58decode_bytes. destruct (lstrip_spec one_char s) as (k & E & _ & _). rewrite E in F. apply Forall_app in F. destruct F as [_ F].
    set (w := lstrip one_char s) in *. rewrite decode_int_spec.
    assert (G : exists ds, fold_right (fun c o => match alpha_index c, o with Some d, Some l => Some (d :: l) | _, _ => None end) (Some []) w = Some ds).
    { clear -F. induction F as [|c w Hc Hw [ds IH]]; cbn [fold_right]; [eauto|]. rewrite IH.
      apply (In_nth _ _ x00) in Hc. destruct Hc as (i & Hi & <-). change (length b58_alphabet) with 58%nat in Hi.
      pose proof (alpha_index_alpha (Z.of_nat i) ltac:(lia)) as A. unfold alpha in A. rewrite Nat2Z.id in A. rewrite A. eauto. }
    destruct G as [ds ->]. cbn [rbind]. eauto.
Qed.
Lemma b58_raises s : (exists d, b58decode_bytes s = Ok d) \/ b58decode_bytes s = Raise ValueError.
Proof.
  unfold b58decode_bytes. rewrite decode_int_spec. destruct (fold_right _ _ _) as [ds|]; cbn [rbind]; eauto.
Qed.

(** ** lengths of texts, from the size of the number *)
Lemma digits_length base i k : 1 < base -> 0 < k -> base ^ (k - 1) <= i < base ^ k -> zlen (divmod_digits base i) = k.
Proof.
  intros B K I. assert (0 < base ^ (k - 1)) by (apply Z.pow_pos_nonneg; lia). destruct (digits_ok base i B ltac:(lia)) as (F & N & V).
  set (e := divmod_digits base i) in *. pose proof (val_bounds _ _ B F) as U. rewrite V in U.
  assert (e <> []) as NE by (intros E; rewrite E in V; cbn in V; lia). pose proof (val_pos _ _ B F N NE) as L. rewrite V in L.
  assert (k - 1 < zlen e). { apply (Z.pow_lt_mono_r_iff base); [lia|apply zlen_nonneg|lia]. }
  assert (zlen e - 1 < k). { apply (Z.pow_lt_mono_r_iff base); lia. } lia.
Qed.
Lemma last_digit base i k d : 1 < base -> 0 < k -> 0 < d < base -> d * base ^ (k - 1) <= i < (d + 1) * base ^ (k - 1) ->
  zlen (divmod_digits base i) = k /\ last (divmod_digits base i) 0 = d.
Proof.
  intros B K D I. assert (P : 0 < base ^ (k - 1)) by (apply Z.pow_pos_nonneg; lia).
  assert (base ^ k = base * base ^ (k - 1)) as Pk by (rewrite <- Z.pow_succ_r by lia; f_equal; lia).
  assert (L : zlen (divmod_digits base i) = k) by (apply digits_length; [lia|lia|nia]). split; [exact L|].
  destruct (digits_ok base i B ltac:(nia)) as (F & N & V). set (e := divmod_digits base i) in *.
  destruct e as [|x l] using rev_ind; [rewrite zlen_nil in L; lia|]. rewrite last_last. rewrite zlen_app in L. change (zlen [x]) with 1 in L.
  apply Forall_app in F. destruct F as [F _]. pose proof (val_bounds _ _ B F) as U. rewrite val_app in V. cbn [val] in V.
  replace (zlen l) with (k - 1) in * by lia. nia.
Qed.
