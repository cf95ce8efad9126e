(** * L_UInt *)
From Coq Require Import String.
From Coq Require Import Lia ZifyBool ZifyNat ZifyN.
From Verif Require Import M_Py M_UInt M_Writer M_Reader M_UIntHeap S_IO S_IO2 S_UInt L_Bytes L_IO L_VarInt L_Hex L_IO2 L_IO3 L_IO4.
Ltac Zify.zify_post_hook ::= Z.div_mod_to_equations.

(** ** construction *)
Lemma init_spec cls n v u : UIntBase_init cls n v = Ok u <->
  exists d, (v = VNone /\ d = repeat x00 n \/ ((v = VBytes d \/ v = VBytearray d) /\ length d = n)) /\
    u = mkUInt cls d (num LE (firstn 4 d)).
Proof.
  assert (Hg : forall d, GetHashCode d = num LE (firstn 4 d)) by (intros d; apply (firstn_num (mkUInt cls d 0))).
  unfold UIntBase_init. split.
  - intros H. destruct v as [b|b|s|z|b|z| |]; cbn [py_len rbind] in H; try discriminate H.
    + destruct (zlen b =? Z.of_nat n) eqn:E; [|discriminate H]. cbn [negb] in H. exists b.
      split; [right; split; [left; reflexivity|unfold zlen in E; lia]|]. rewrite <- Hg. congruence.
    + destruct (zlen b =? Z.of_nat n) eqn:E; [|discriminate H]. cbn [negb] in H. exists b.
      split; [right; split; [right; reflexivity|unfold zlen in E; lia]|]. rewrite <- Hg. congruence.
    + destruct (zlen s =? Z.of_nat n); discriminate H.
    + exists (repeat x00 n). split; [left; split; reflexivity|]. rewrite <- Hg. congruence.
  - intros (d & Hv & ->). rewrite <- Hg. destruct Hv as [[-> ->]|[[->| ->] Hl]]; [reflexivity| |];
    cbn [py_len rbind]; unfold zlen; rewrite Hl, Z.eqb_refl; reflexivity.
Qed.
Lemma init_total cls n v : (exists u, UIntBase_init cls n v = Ok u) \/ (exists e, UIntBase_init cls n v = Raise e).
Proof. destruct (UIntBase_init cls n v) as [u|e]; eauto. Qed.

Lemma new160 d : length d = 20%nat -> new_UInt160 (VBytearray d) = Ok (mkUInt CUInt160 d (num LE (firstn 4 d))).
Proof. intros H. apply init_spec. exists d. split; [right; auto|reflexivity]. Qed.
Lemma new256 d : length d = 32%nat -> new_UInt256 (VBytearray d) = Ok (mkUInt CUInt256 d (num LE (firstn 4 d))).
Proof. intros H. apply init_spec. exists d. split; [right; auto|reflexivity]. Qed.

(** ** text *)
Lemma strip_0x_spec s t : unprefixed s t <-> strip_0x s = t.
Proof.
  unfold unprefixed, strip_0x. destruct (list_eq_dec Z.eq_dec (firstn 2 s) (str "0x")) as [E|E].
  - pose proof (firstn_skipn 2 s) as F. rewrite E in F. split.
    + intros [->|[-> Hn]]; [reflexivity|]. destruct (Hn (skipn 2 t)). symmetry. exact F.
    + intros <-. left. symmetry. exact F.
  - split.
    + intros [->|[-> Hn]]; [|reflexivity]. destruct E. reflexivity.
    + intros <-. right. split; [reflexivity|]. intros r ->. apply E. reflexivity.
Qed.

Lemma hexval_space a : is_space a = true -> hexval a = None.
Proof.
  unfold is_space, hexval. intros H. replace ((48 <=? a) && (a <=? 57)) with false by lia.
  replace ((97 <=? a) && (a <=? 102)) with false by lia. replace ((65 <=? a) && (a <=? 70)) with false by lia. reflexivity.
Qed.
Lemma fromhex_digits l : hex_text l -> fromhex_codes l = unhex_codes l.
Proof.
  intros [_ H]. revert H. induction l as [|a|a b r IH] using pair_ind; intros H; [reflexivity| |].
  - cbn. destruct (is_space a) eqn:E; [|reflexivity]. apply hexval_space in E.
    inversion H as [|x y Hx _]; subst. apply is_hex_code_iff in Hx. unfold is_hex_code in Hx. rewrite E in Hx. discriminate.
  - cbn [fromhex_codes unhex_codes]. inversion H as [|x y Hx Hy]; subst. inversion Hy as [|x y Hb Hr]; subst.
    destruct (is_space a) eqn:E.
    { apply hexval_space in E. apply is_hex_code_iff in Hx. unfold is_hex_code in Hx. rewrite E in Hx. discriminate. }
    rewrite IH by exact Hr. reflexivity.
Qed.
(** a successful fromhex either skipped something (short result) or saw only digits *)
Lemma fromhex_length l b : fromhex_codes l = Some b -> (2 * length b <= length l)%nat /\ ((2 * length b = length l)%nat -> hex_text l).
Proof.
  assert (forall n l b, (length l <= n)%nat -> fromhex_codes l = Some b -> (2 * length b <= length l)%nat /\ ((2 * length b = length l)%nat -> hex_text l)) as H; [|apply (H _ _ _ (le_n _))].
  clear. induction n as [|n IH]; intros l b Hl H.
  - destruct l; [|cbn in Hl; lia]. cbn in H. injection H as <-. split; [cbn; lia|]. intros _. split; [exists O; reflexivity|constructor].
  - destruct l as [|a r]; [cbn in H; injection H as <-; split; [cbn; lia|]; intros _; split; [exists O; reflexivity|constructor]|].
    cbn [fromhex_codes] in H. cbn [length] in Hl. destruct (is_space a) eqn:E.
    + destruct (IH r b) as [H1 H2]; [lia|exact H|]. cbn [length]. split; lia.
    + destruct r as [|c r']; [discriminate|]. destruct (hexval a) as [h|] eqn:Ea; [|discriminate].
      destruct (hexval c) as [g|] eqn:Ec; [|discriminate]. destruct (fromhex_codes r') as [t|] eqn:Er; [|discriminate].
      assert (b = z2b (16 * h + g) :: t) as -> by congruence. cbn [length] in *.
      destruct (IH r' t) as [H1 H2]; [lia|exact Er|]. split; [lia|]. intros HL. destruct H2 as [He Hf]; [lia|].
      split; [destruct He as [m Hm]; exists (S m); cbn [length]; lia|].
      constructor; [apply is_hex_code_iff; unfold is_hex_code; rewrite Ea; reflexivity|].
      constructor; [apply is_hex_code_iff; unfold is_hex_code; rewrite Ec; reflexivity|exact Hf].
Qed.

Lemma map_lower_hex_rev t d : hex_denotes t d -> map lower t = hex d.
Proof. intros H. exact H. Qed.

Section Parse.
Variables (cls : ucls) (n : nat).
Definition parse_with (s : pystr) : res uint :=
  let value := strip_0x s in
  if negb (zlen value =? Z.of_nat (2 * n)) then Raise PlainException
  else do reversed_data <- fromhex value; UIntBase_init cls n (VBytearray (rev reversed_data)).
Lemma parse_spec s u : parse_with s = Ok u <->
  exists t, unprefixed s t /\ length t = (2 * n)%nat /\ Forall hex_digit_code t /\
    (u_cls u = cls /\ length (u_data u) = n /\ u_hash u = num LE (firstn 4 (u_data u))) /\ ToString u = map lower t.
Proof.
  unfold parse_with. split.
  - intros H. exists (strip_0x s). split; [apply strip_0x_spec; reflexivity|]. set (t := strip_0x s) in *.
    destruct (zlen t =? Z.of_nat (2 * n)) eqn:El; [|discriminate]. cbn [negb] in H. unfold zlen in El.
    unfold fromhex in H. destruct (fromhex_codes t) as [d|] eqn:Ed; [|discriminate]. cbn [rbind] in H.
    apply init_spec in H as (d' & [[Hc _]|[Hc Hl]] & ->); [discriminate|].
    assert (d' = rev d) as -> by (destruct Hc as [Hc|Hc]; congruence). clear Hc. rewrite rev_length in Hl.
    destruct (fromhex_length _ _ Ed) as [_ Hh]. assert (Ht : hex_text t) by (apply Hh; lia).
    split; [lia|]. split; [apply Ht|]. split.
    + cbn [u_cls u_data u_hash]. rewrite rev_length. auto.
    + unfold ToString. cbn [u_data]. rewrite rev_involutive. symmetry. rewrite fromhex_digits in Ed by exact Ht. apply unhex_denotes, Ed.
  - intros (t & Ht & Hl & Hf & (Hc & Hn & Hh) & Hs). apply strip_0x_spec in Ht. rewrite Ht.
    unfold zlen. rewrite Hl, Z.eqb_refl. cbn [negb].
    assert (Hx : hex_text t) by (split; [exists n; lia|exact Hf]).
    assert (Hd : unhex_codes t = Some (rev (u_data u))) by (apply unhex_denotes; symmetry; exact Hs).
    unfold fromhex. rewrite (fromhex_digits _ Hx), Hd. cbn [rbind]. rewrite rev_involutive.
    apply init_spec. exists (u_data u). split; [right; auto|]. rewrite <- Hh, <- Hc. destruct u; reflexivity.
Qed.
End Parse.

Lemma parse160 s u : UInt160_ParseString s = Ok u <->
  exists t, unprefixed s t /\ length t = 40%nat /\ Forall hex_digit_code t /\ is_UInt160 u /\ ToString u = map lower t.
Proof. exact (parse_spec CUInt160 20 s u). Qed.
Lemma parse256 s u : UInt256_ParseString s = Ok u <->
  exists t, unprefixed s t /\ length t = 64%nat /\ Forall hex_digit_code t /\ is_UInt256 u /\ ToString u = map lower t.
Proof. exact (parse_spec CUInt256 32 s u). Qed.

Lemma hex_lower_digits b : Forall lower_hex_digit (hex b).
Proof.
  induction b as [|x b IH]; cbn [hex]; [constructor|]. pose proof (b2z_range x).
  assert (forall d, 0 <= d < 16 -> lower_hex_digit (hexdigit d)) as Hd.
  { intros d Hd. unfold lower_hex_digit, hexdigit. destruct (d <? 10) eqn:E; lia. }
  constructor; [apply Hd; lia|]. constructor; [apply Hd; lia|exact IH].
Qed.
Lemma lower_hex_hex b : Forall hex_digit_code (hex b).
Proof. eapply Forall_impl; [|apply hex_lower_digits]. unfold lower_hex_digit, hex_digit_code. intros c Hc. lia. Qed.

Lemma hex_number_app a b : hex_number (a ++ b) = fold_left (fun n c => 16 * n + (if c <=? 57 then c - 48 else c - 87)) b (hex_number a).
Proof. apply fold_left_app. Qed.
Lemma hexdigit_value d : 0 <= d < 16 -> (if hexdigit d <=? 57 then hexdigit d - 48 else hexdigit d - 87) = d.
Proof. intros H. unfold hexdigit. destruct (d <? 10) eqn:E; [replace (48 + d <=? 57) with true by lia|replace (87 + d <=? 57) with false by lia]; lia. Qed.
Lemma hex_number_hex_aux b : forall a, fold_left (fun n c => 16 * n + (if c <=? 57 then c - 48 else c - 87)) (hex b) a = fold_left (fun n x => 256 * n + b2z x) b a.
Proof.
  induction b as [|x b IH]; intros a; [reflexivity|]. cbn [hex fold_left]. pose proof (b2z_range x).
  rewrite !hexdigit_value by lia. rewrite IH. f_equal. lia.
Qed.
Lemma hex_number_hex b : hex_number (hex b) = num_be b.
Proof. apply hex_number_hex_aux. Qed.

Lemma ToString_spec u : zlen (ToString u) = 2 * zlen (u_data u) /\ Forall lower_hex_digit (ToString u) /\ hex_number (ToString u) = value_of u.
Proof.
  unfold ToString, value_of. split; [|split].
  - unfold zlen. rewrite hex_length, rev_length. lia.
  - apply hex_lower_digits.
  - rewrite hex_number_hex, num_be_eq, rev_involutive. symmetry. apply num_le_eq.
Qed.

Lemma unprefixed_hex b : unprefixed (hex b) (hex b).
Proof.
  right. split; [reflexivity|]. intros r H. pose proof (hex_lower_digits b) as Hf. rewrite H in Hf.
  cbn in Hf. inversion Hf as [|x l _ H2]; subst. inversion H2 as [|x l Hx _]; subst. unfold lower_hex_digit in Hx. lia.
Qed.
Lemma roundtrip160 u : is_UInt160 u -> UInt160_ParseString (ToString u) = Ok u /\ UInt160_ParseString (To0xString u) = Ok u.
Proof.
  intros H. assert (Hl : length (ToString u) = 40%nat) by (unfold ToString; rewrite hex_length, rev_length; destruct H as (_ & -> & _); reflexivity).
  split; apply parse160; exists (ToString u).
  - split; [apply unprefixed_hex|]. split; [exact Hl|]. split; [apply lower_hex_hex|]. split; [exact H|]. symmetry. apply lower_hex.
  - split; [left; reflexivity|]. split; [exact Hl|]. split; [apply lower_hex_hex|]. split; [exact H|]. symmetry. apply lower_hex.
Qed.
Lemma roundtrip256 u : is_UInt256 u -> UInt256_ParseString (ToString u) = Ok u /\ UInt256_ParseString (To0xString u) = Ok u.
Proof.
  intros H. assert (Hl : length (ToString u) = 64%nat) by (unfold ToString; rewrite hex_length, rev_length; destruct H as (_ & -> & _); reflexivity).
  split; apply parse256; exists (ToString u).
  - split; [apply unprefixed_hex|]. split; [exact Hl|]. split; [apply lower_hex_hex|]. split; [exact H|]. symmetry. apply lower_hex.
  - split; [left; reflexivity|]. split; [exact Hl|]. split; [apply lower_hex_hex|]. split; [exact H|]. symmetry. apply lower_hex.
Qed.

(** ** ordering *)
Lemma firstn_S_nth {A} (d : A) k l : (k < length l)%nat -> firstn (S k) l = firstn k l ++ [nth k l d].
Proof.
  revert l. induction k as [|k IH]; intros [|x l] H; cbn in H; try lia; [reflexivity|].
  cbn [firstn nth app]. f_equal. apply (IH l). lia.
Qed.
Lemma compare_scale a b c d M : 0 <= a < M -> 0 <= b < M -> (a + M * c ?= b + M * d) = match c ?= d with Eq => a ?= b | r => r end.
Proof.
  intros Ha Hb. destruct (Z.compare_spec c d) as [E|E|E].
  - subst. destruct (Z.compare_spec a b) as [E|E|E]; [apply Z.compare_eq_iff|apply Z.compare_lt_iff|apply Z.compare_gt_iff]; lia.
  - apply Z.compare_lt_iff. nia.
  - apply Z.compare_gt_iff. nia.
Qed.
Lemma compare_loop_spec i x0 y0 xs ys : (i <= length xs)%nat -> (i <= length ys)%nat ->
  compare_loop i (x0 :: xs) (y0 :: ys) = sign_of (le2z (firstn i xs) ?= le2z (firstn i ys)).
Proof.
  induction i as [|k IH]; intros Hx Hy; [reflexivity|].
  cbn [compare_loop nth]. rewrite IH by lia.
  rewrite (firstn_S_nth x00 k xs), (firstn_S_nth x00 k ys) by lia. rewrite !le2z_app.
  unfold zlen. rewrite !firstn_length_le by lia.
  pose proof (le2z_bound (firstn k xs)) as Bx. pose proof (le2z_bound (firstn k ys)) as By.
  unfold zlen in Bx, By. rewrite firstn_length_le in Bx, By by lia.
  rewrite compare_scale by assumption. cbn [le2z].
  set (p := b2z (nth k xs x00)). set (q := b2z (nth k ys x00)).
  replace (p + 256 * 0) with p by lia. replace (q + 256 * 0) with q by lia.
  destruct (Z.compare_spec p q) as [E|E|E].
  - replace (p >? q) with false by lia. replace (p <? q) with false by lia. reflexivity.
  - replace (p >? q) with false by lia. replace (p <? q) with true by lia. reflexivity.
  - replace (p >? q) with true by lia. reflexivity.
Qed.
Lemma CompareTo_spec a b : length (u_data a) = length (u_data b) ->
  CompareTo a (Some b) = Ok (sign_of (value_of a / 256 ?= value_of b / 256)).
Proof.
  intros H. unfold CompareTo, ToArray, value_of. unfold zlen. rewrite H, Z.eqb_refl. cbn [negb]. f_equal.
  rewrite !num_eq. unfold bytes2z, order_bytes.
  destruct (u_data a) as [|x0 xs], (u_data b) as [|y0 ys]; try discriminate H; [reflexivity|].
  cbn [length] in *. injection H as H. cbn [Nat.sub]. rewrite Nat.sub_0_r. rewrite compare_loop_spec by lia.
  rewrite <- H at 1. rewrite H at 1. rewrite (firstn_all2 xs), (firstn_all2 ys) by lia.
  cbn [le2z]. pose proof (b2z_range x0). pose proof (b2z_range y0).
  replace ((b2z x0 + 256 * le2z xs) / 256) with (le2z xs) by lia. replace ((b2z y0 + 256 * le2z ys) / 256) with (le2z ys) by lia. reflexivity.
Qed.
Lemma CompareTo_size a b : length (u_data a) <> length (u_data b) -> CompareTo a (Some b) = Raise PlainException.
Proof. intros H. unfold CompareTo, ToArray, zlen. replace (_ =? _) with false by lia. reflexivity. Qed.
Lemma ops_spec a b : length (u_data a) = length (u_data b) ->
  uint_lt a (Some b) = Ok (value_of a / 256 <? value_of b / 256) /\
  uint_gt a (Some b) = Ok (value_of b / 256 <? value_of a / 256) /\
  uint_le a (Some b) = Ok (value_of a / 256 <=? value_of b / 256) /\
  uint_ge a (Some b) = Ok (value_of b / 256 <=? value_of a / 256).
Proof.
  intros H. unfold uint_lt, uint_gt, uint_le, uint_ge. rewrite CompareTo_spec by exact H. cbn [rbind].
  destruct (Z.compare_spec (value_of a / 256) (value_of b / 256)) as [E|E|E]; cbn [sign_of]; repeat split; f_equal; lia.
Qed.
Lemma low_byte_ties x y r cls hx hy : x <> y ->
  CompareTo (mkUInt cls (x :: r) hx) (Some (mkUInt cls (y :: r) hy)) = Ok 0 /\
  uint_eq (mkUInt cls (x :: r) hx) (Some (mkUInt cls (y :: r) hy)) = false.
Proof.
  intros H. split.
  - rewrite CompareTo_spec by reflexivity. unfold value_of. rewrite !num_eq. unfold bytes2z, order_bytes. cbn [u_data le2z].
    pose proof (b2z_range x). pose proof (b2z_range y).
    replace ((b2z x + 256 * le2z r) / 256) with (le2z r) by lia. replace ((b2z y + 256 * le2z r) / 256) with (le2z r) by lia.
    rewrite Z.compare_refl. reflexivity.
  - unfold uint_eq. cbn [u_data]. destruct (list_eq_dec _ _ _) as [E|E]; [congruence|reflexivity].
Qed.

(** ** Deserialize *)
Lemma Deserialize_any u s : Z.of_nat (Size u) <= maxsize ->
  uint_Deserialize u s =
    (Ok (mkUInt (u_cls u) (firstn (Size u) (remaining s)) (num LE (firstn 4 (firstn (Size u) (remaining s))))),
     advance (Nat.min (Size u) (length (remaining s))) s).
Proof.
  intros H. unfold uint_Deserialize, ibind. rewrite ReadBytes_any by lia. rewrite Nat2Z.id.
  change (GetHashCode ?d) with (GetHashCode (u_data (mkUInt (u_cls u) d 0))). rewrite firstn_num. cbn [u_data].
  unfold iret. rewrite firstn_length. reflexivity.
Qed.
Lemma array_malformed r : (length r < 32)%nat -> exists u s', u_cls u = CUInt256 /\ u_data u = r /\
  ReadSerializableArray UInt256_klass 1 (mkStream (x01 :: r) 0) = (Ok [u], s').
Proof.
  intros H. unfold ReadSerializableArray, ibind.
  rewrite (ReadVarInt_enc 1 1 [x01] _ r); [|constructor; [lia|reflexivity]|reflexivity].
  change ((1 =? 0) || (1 <=? 1)) with true. cbv iota. change (Z.to_nat 1) with 1%nat. cbn [deserialize_loop].
  cbn [k_deser k_new UInt256_klass]. rewrite Deserialize_any by (cbn; unfold maxsize; lia).
  change (Size (k_new UInt256_klass)) with 32%nat.
  assert (Hr : remaining (advance (length [x01]) (mkStream (x01 :: r) 0)) = r) by (apply (remaining_advance_app _ [x01] r); reflexivity).
  unfold iret. rewrite Hr. change (Size (mkUInt CUInt256 (repeat x00 32) 0)) with 32%nat. rewrite (firstn_all2 r) by lia.
  eexists _, _. split; [|split; [|reflexivity]]; reflexivity.
Qed.

(** ** histories *)
Definition uinv (w : world) : Prop :=
  forall o, In o (objs w) -> o_hash o = GetHashCode (data_of w o) /\
    match o_data o with DCell l => (l < length (cells w))%nat | DImm _ => True end.

Lemma update_in {A} (l : list A) i x y : In y (update l i x) -> y = x \/ In y l.
Proof.
  revert i. induction l as [|a l IH]; intros [|i] H; cbn in *; try tauto.
  - destruct H as [H|H]; auto.
  - destruct H as [H|H]; [auto|]. apply IH in H. tauto.
Qed.
Lemma update_length {A} (l : list A) i x : length (update l i x) = length l.
Proof. revert i. induction l as [|a l IH]; intros [|i]; cbn; auto. Qed.
Lemma update_nth {A} (l : list A) i j x d : i <> j -> nth j (update l i x) d = nth j l d.
Proof. revert i j. induction l as [|a l IH]; intros [|i] [|j] H; cbn; try reflexivity; try lia; apply IH; lia. Qed.

Lemma uinv_alloc w b : uinv w -> uinv (snd (alloc w b)).
Proof.
  intros H o Ho. cbn in *. destruct (H o Ho) as [H1 H2]. unfold data_of, cell in *. destruct (o_data o) as [l|]; cbn [cells snd alloc].
  - rewrite app_nth1 by exact H2. rewrite app_length. cbn. split; [exact H1|lia].
  - auto.
Qed.
Lemma uinv_add w o : uinv w -> o_hash o = GetHashCode (data_of w o) ->
  match o_data o with DCell l => (l < length (cells w))%nat | DImm _ => True end -> uinv (add_obj w o).
Proof.
  intros H H1 H2 p Hp. cbn in Hp. apply in_app_or in Hp as [Hp|[<-|[]]]; [apply (H p Hp)|split; assumption].
Qed.

Lemma ustep_inv w op : uinv w -> leaves_uints_alone w op -> uinv (ustep w op).
Proof.
  intros H Hl. destruct op as [b|loc b|cls n a|i s]; cbn [ustep leaves_uints_alone] in *.
  - apply uinv_alloc, H.
  - intros o Ho. cbn in Ho. destruct (H o Ho) as [H1 H2]. specialize (Hl o Ho). unfold data_of, cell in *.
    destruct (o_data o) as [l|]; cbn [cells]; [|auto]. rewrite update_length. rewrite update_nth by congruence. auto.
  - destruct a as [|b|loc].
    + cbn [alloc]. apply uinv_add; [apply (uinv_alloc w (repeat x00 n) H)| |cbn; rewrite app_length; cbn; lia].
      unfold data_of, cell. cbn. rewrite app_nth2, Nat.sub_diag by lia. reflexivity.
    + destruct (negb (zlen b =? Z.of_nat n)); [exact H|]. cbn [alloc]. apply uinv_add; [apply (uinv_alloc w b H)| |cbn; rewrite app_length; cbn; lia].
      unfold data_of, cell. cbn. rewrite app_nth2, Nat.sub_diag by lia. reflexivity.
    + destruct (loc <? length (cells w))%nat eqn:E; [|exact H]. destruct (negb _); [exact H|]. apply uinv_add; [exact H|reflexivity|cbn; lia].
  - destruct (nth_error (objs w) i) as [o|] eqn:E; [|exact H]. destruct (uint_Deserialize (view w o) s) as [[u|e] s'] eqn:Ed; [|exact H].
    intros p Hp. cbn in Hp. apply update_in in Hp as [->|Hp]; [|apply (H p Hp)]. unfold data_of. cbn. split; [|exact I].
    unfold uint_Deserialize, ibind in Ed. destruct (ReadBytes _ s) as [[d|e] s2]; [|discriminate]. unfold iret in Ed.
    injection Ed as <- _. reflexivity.
Qed.
Lemma run_inv l : forall w, uinv w -> clean_history w l -> uinv (run_uops l w).
Proof.
  induction l as [|op l IH]; intros w H Hc; [exact H|]. cbn [clean_history] in Hc. cbn [run_uops fold_left].
  apply IH; [apply ustep_inv; [exact H|apply Hc]|apply Hc].
Qed.
Lemma history_eq_hash l w : clean_history empty_world l -> w = run_uops l empty_world ->
  forall a b, In a (objs w) -> In b (objs w) ->
  uint_eq (view w a) (Some (view w b)) = true -> uint_hash (view w a) = uint_hash (view w b).
Proof.
  intros Hc -> a b Ha Hb He. assert (Hi : uinv (run_uops l empty_world)) by (apply run_inv; [intros o []|exact Hc]).
  apply uint_eq_spec in He. cbn [u_data view] in He. cbn [uint_hash u_hash view]. unfold uint_hash, view. cbn [u_hash].
  rewrite (proj1 (Hi a Ha)), (proj1 (Hi b Hb)), He. reflexivity.
Qed.
Lemma history_hash_current l w : clean_history empty_world l -> w = run_uops l empty_world ->
  forall o, In o (objs w) -> uint_hash (view w o) = num LE (firstn 4 (u_data (view w o))).
Proof.
  intros Hc -> o Ho. assert (Hi : uinv (run_uops l empty_world)) by (apply run_inv; [intros p []|exact Hc]).
  rewrite <- firstn_num. apply (proj1 (Hi o Ho)).
Qed.
(** mutation of a shared cell: the object's bytes follow, its hash does not *)
Lemma mutate_stale cls n loc b w : (loc < length (cells w))%nat -> length (cell w loc) = n ->
  let w1 := ustep w (Construct cls n (ACell loc)) in
  let w2 := ustep w1 (Mutate loc b) in
  exists o, objs w2 = objs w ++ [o] /\ u_data (view w2 o) = b /\ uint_hash (view w2 o) = num LE (firstn 4 (cell w loc)).
Proof.
  intros Hl Hn w1 w2. assert (w1 = add_obj w (mkObj cls (DCell loc) (GetHashCode (cell w loc)))) as E1.
  { unfold w1. cbn [ustep]. replace (loc <? length (cells w))%nat with true by lia.
    replace (zlen (cell w loc) =? Z.of_nat n) with true by (unfold zlen; lia). reflexivity. }
  eexists. split; [unfold w2; rewrite E1; reflexivity|]. unfold w2. rewrite E1. cbn. split.
  - unfold data_of, cell. cbn. clear -Hl. revert loc Hl. induction (cells w) as [|c r IH]; intros [|l] H; cbn in *; try lia; [reflexivity|apply IH; lia].
  - unfold uint_hash, view. cbn. apply (firstn_num (mkUInt cls (cell w loc) 0)).
Qed.

(** ** texts ParseString refuses *)
Lemma hexval_digit c : hex_digit_code c <-> exists h, hexval c = Some h.
Proof.
  rewrite <- is_hex_code_iff. unfold is_hex_code. destruct (hexval c) as [h|]; split; intros E; eauto; try discriminate. destruct E; discriminate.
Qed.
Lemma blank_not_digit c : ascii_blank c -> ~ hex_digit_code c.
Proof. unfold ascii_blank, hex_digit_code. lia. Qed.
Lemma is_space_blank c : is_space c = true <-> ascii_blank c.
Proof. unfold is_space, ascii_blank. lia. Qed.
Lemma fromhex_spaced n : forall t, (length t <= n)%nat -> (exists d, fromhex_codes t = Some d) <-> spaced_pairs t.
Proof.
  induction n as [|n IH]; intros t L.
  - destruct t; [|cbn in L; lia]. split; [constructor|exists []; reflexivity].
  - destruct t as [|a r]; [split; [constructor|exists []; reflexivity]|]. cbn [length] in L. cbn [fromhex_codes].
    destruct (is_space a) eqn:Sa.
    + rewrite IH by lia. apply is_space_blank in Sa. split; [intros S; constructor; assumption|]. intros S. inversion S as [|c t B S'|x y t Hx Hy S']; subst; [exact S'|]. destruct (blank_not_digit a Sa Hx).
    + assert (Na : ~ ascii_blank a) by (rewrite <- is_space_blank; congruence). destruct r as [|b r'].
      * split; [intros [d E]; discriminate|]. intros S. inversion S; subst; contradiction.
      * cbn [length] in L. split.
        -- intros [d E]. destruct (hexval a) as [h|] eqn:Ea; [|discriminate]. destruct (hexval b) as [g|] eqn:Eb; [|discriminate]. destruct (fromhex_codes r') as [d'|] eqn:Er; [|discriminate].
           apply sp_pair; [apply hexval_digit; eauto|apply hexval_digit; eauto|]. apply IH; [lia|]. eauto.
        -- intros S. inversion S as [|c t B S'|x y t Hx Hy S']; subst; [contradiction|]. apply hexval_digit in Hx as [h ->]. apply hexval_digit in Hy as [g ->].
           apply IH in S'; [|lia]. destruct S' as [d ->]. eauto.
Qed.
Lemma spaced_length n : forall t, (length t <= n)%nat -> forall d, fromhex_codes t = Some d -> (2 * length d = length t)%nat -> Forall hex_digit_code t.
Proof. intros t _ d E L. apply (fromhex_length t d E) in L. apply L. Qed.
Lemma refused_n cls n (parse : pystr -> res uint) : 
  (forall s, parse s = let value := strip_0x s in if negb (zlen value =? Z.of_nat (2 * n)) then Raise PlainException else do r <- fromhex value; UIntBase_init cls n (VBytearray (rev r))) ->
  parse_refused parse (2 * n).
Proof.
  intros P s t U. rewrite P. apply strip_0x_spec in U as ->. cbn zeta. unfold zlen at 1 2 3. split; [|split].
  - intros L. destruct (Z.eqb_spec (Z.of_nat (length t)) (Z.of_nat (2 * n))); [lia|reflexivity].
  - intros L S. rewrite L, Z.eqb_refl. cbn [negb]. unfold fromhex. destruct (fromhex_codes t) as [d|] eqn:E; [|reflexivity].
    destruct S. apply (fromhex_spaced (length t) t (le_n _)). eauto.
  - intros L S N. rewrite L, Z.eqb_refl. cbn [negb]. apply (fromhex_spaced (length t) t (le_n _)) in S as [d E]. unfold fromhex. rewrite E. cbn [rbind].
    unfold UIntBase_init. cbn [py_len rbind]. destruct (Z.eqb_spec (zlen (rev d)) (Z.of_nat n)) as [Ld|Ld]; [|reflexivity].
    destruct N. apply (spaced_length (length t) t (le_n _) d E). unfold zlen in Ld. rewrite rev_length in Ld. lia.
Qed.
