(** * L_Bytes: lemmas about bytes, base-256 numbers and hexadecimal *)
From Coq Require Import Lia ZifyBool ZifyNat ZifyN.
From Verif Require Import M_Py.
Ltac Zify.zify_post_hook ::= Z.div_mod_to_equations.

Lemma b2z_range b : 0 <= b2z b < 256.
Proof.
  unfold b2z. pose proof (Byte.to_N_bounded b). lia.
Qed.

Lemma z2b_b2z b : z2b (b2z b) = b.
Proof.
  unfold z2b. pose proof (b2z_range b) as H. rewrite Z.mod_small by exact H.
  unfold b2z. rewrite N2Z.id. rewrite Byte.of_to_N. reflexivity.
Qed.

Lemma b2z_z2b z : b2z (z2b z) = z mod 256.
Proof.
  unfold z2b, b2z.
  assert (0 <= z mod 256 < 256) as H by (apply Z.mod_pos_bound; lia).
  destruct (Byte.of_N (Z.to_N (z mod 256))) as [b|] eqn:E.
  - apply Byte.to_of_N in E. rewrite E. rewrite Z2N.id by lia. reflexivity.
  - apply Byte.of_N_None_iff in E. lia.
Qed.

Lemma b2z_inj a b : b2z a = b2z b -> a = b.
Proof. intros H. rewrite <- (z2b_b2z a), <- (z2b_b2z b), H. reflexivity. Qed.

Lemma z2b_mod z : z2b (z mod 256) = z2b z.
Proof. apply b2z_inj. rewrite !b2z_z2b. apply Z.mod_mod. lia. Qed.

Lemma z2b_small z : 0 <= z < 256 -> b2z (z2b z) = z.
Proof. intros H. rewrite b2z_z2b. apply Z.mod_small. exact H. Qed.

Lemma map_b2z_inj a b : map b2z a = map b2z b -> a = b.
Proof.
  revert b. induction a as [|x a IH]; intros [|y b] H; try discriminate; [reflexivity|].
  cbn in H. injection H as H1 H2. f_equal; [apply b2z_inj, H1|apply IH, H2].
Qed.

Lemma map_z2b_b2z l : map z2b (map b2z l) = l.
Proof. induction l as [|x l IH]; cbn; [reflexivity|]. rewrite z2b_b2z, IH. reflexivity. Qed.

Lemma map_b2z_z2b l : Forall (fun c => 0 <= c < 256) l -> map b2z (map z2b l) = l.
Proof.
  induction 1 as [|x l Hx Hl IH]; cbn; [reflexivity|]. rewrite IH, z2b_small by assumption. reflexivity.
Qed.

(** ** zlen *)
Lemma zlen_nonneg {A} (l : list A) : 0 <= zlen l.
Proof. unfold zlen. lia. Qed.
Lemma zlen_app {A} (l r : list A) : zlen (l ++ r) = zlen l + zlen r.
Proof. unfold zlen. rewrite app_length. lia. Qed.
Lemma zlen_cons {A} (x : A) r : zlen (x :: r) = 1 + zlen r.
Proof. unfold zlen. cbn [length]. lia. Qed.
Lemma zlen_nil {A} : zlen (@nil A) = 0.
Proof. reflexivity. Qed.
Lemma zlen_rev {A} (l : list A) : zlen (rev l) = zlen l.
Proof. unfold zlen. rewrite rev_length. reflexivity. Qed.
Lemma zlen_map {A B} (f : A -> B) l : zlen (map f l) = zlen l.
Proof. unfold zlen. rewrite map_length. reflexivity. Qed.

(** ** base 256 *)
Lemma pow256_S n : 256 ^ Z.of_nat (S n) = 256 * 256 ^ Z.of_nat n.
Proof. rewrite Nat2Z.inj_succ, Z.pow_succ_r by lia. reflexivity. Qed.
Lemma pow256_pos n : 0 < 256 ^ Z.of_nat n.
Proof. apply Z.pow_pos_nonneg; lia. Qed.

Lemma z2le_length n z : length (z2le n z) = n.
Proof. revert z. induction n as [|n IH]; intros z; cbn [z2le length]; [reflexivity|]. rewrite IH. reflexivity. Qed.

Lemma le2z_bound l : 0 <= le2z l < 256 ^ zlen l.
Proof.
  unfold zlen. induction l as [|b l IH]; cbn [le2z length]; [cbn; lia|].
  rewrite pow256_S. pose proof (b2z_range b). lia.
Qed.

Lemma le2z_z2le n z : le2z (z2le n z) = z mod 256 ^ Z.of_nat n.
Proof.
  revert z. induction n as [|n IH]; intros z; cbn [z2le le2z].
  - change (256 ^ Z.of_nat 0) with 1. rewrite Z.mod_1_r. reflexivity.
  - rewrite b2z_z2b, IH, pow256_S. pose proof (pow256_pos n) as Hp.
    rewrite Z.rem_mul_r by lia. reflexivity.
Qed.

Lemma z2le_le2z l : z2le (length l) (le2z l) = l.
Proof.
  induction l as [|b l IH]; cbn [length le2z z2le]; [reflexivity|].
  pose proof (b2z_range b) as Hb.
  rewrite Z.add_comm, Z.mul_comm.
  f_equal.
  - apply b2z_inj. rewrite b2z_z2b. rewrite Z.add_comm, Z_mod_plus_full. apply Z.mod_small, Hb.
  - rewrite Z.div_add_l by lia. rewrite Z.div_small by exact Hb. rewrite Z.add_0_r. exact IH.
Qed.

Lemma le2z_inj a b : length a = length b -> le2z a = le2z b -> a = b.
Proof. intros Hl Hv. rewrite <- (z2le_le2z a), <- (z2le_le2z b), Hl, Hv. reflexivity. Qed.

Lemma z2le_mod n z : z2le n (z mod 256 ^ Z.of_nat n) = z2le n z.
Proof.
  apply le2z_inj; [rewrite !z2le_length; reflexivity|].
  rewrite !le2z_z2le. apply Z.mod_mod. pose proof (pow256_pos n). lia.
Qed.

Lemma le2z_app a b : le2z (a ++ b) = le2z a + 256 ^ zlen a * le2z b.
Proof.
  unfold zlen. induction a as [|x a IH]; cbn [app le2z length].
  - change (256 ^ Z.of_nat 0) with 1. lia.
  - rewrite IH, pow256_S. ring.
Qed.

Lemma order_bytes_length e l : length (order_bytes e l) = length l.
Proof. destruct e; cbn; [reflexivity|apply rev_length]. Qed.
Lemma order_bytes_invol e l : order_bytes e (order_bytes e l) = l.
Proof. destruct e; cbn; [reflexivity|apply rev_involutive]. Qed.

Lemma z2bytes_length e n z : length (z2bytes e n z) = n.
Proof. unfold z2bytes. rewrite order_bytes_length, z2le_length. reflexivity. Qed.

Lemma bytes2z_z2bytes e n z : bytes2z e (z2bytes e n z) = z mod 256 ^ Z.of_nat n.
Proof. unfold bytes2z, z2bytes. rewrite order_bytes_invol. apply le2z_z2le. Qed.

Lemma bytes2z_bound e l : 0 <= bytes2z e l < 256 ^ zlen l.
Proof.
  unfold bytes2z. pose proof (le2z_bound (order_bytes e l)) as H.
  unfold zlen in *. rewrite order_bytes_length in H. exact H.
Qed.

Lemma z2bytes_bytes2z e l : z2bytes e (length l) (bytes2z e l) = l.
Proof.
  unfold z2bytes, bytes2z. rewrite <- (order_bytes_length e l), z2le_le2z. apply order_bytes_invol.
Qed.

(** half of 256^n *)
Lemma pow256_half n : (0 < n)%nat -> 256 ^ Z.of_nat n = 2 * (256 ^ Z.of_nat n / 2).
Proof.
  intros Hn. destruct n as [|n]; [lia|]. rewrite pow256_S.
  replace (256 * 256 ^ Z.of_nat n) with (2 * (128 * 256 ^ Z.of_nat n)) by ring.
  rewrite (Z.mul_comm 2 (128 * _)) at 2. rewrite Z.div_mul by lia. reflexivity.
Qed.

Lemma int_fits_spec sg n z : (0 < n)%nat ->
  int_fits sg n z = true <->
  (if sg then - (256 ^ Z.of_nat n / 2) <= z < 256 ^ Z.of_nat n / 2
   else 0 <= z < 256 ^ Z.of_nat n).
Proof.
  intros Hn. unfold int_fits, int_min, int_max. destruct n as [|n]; [lia|].
  destruct sg; lia.
Qed.

Lemma int_from_z2bytes e sg n z :
  (0 < n)%nat -> int_fits sg n z = true -> int_from_bytes e sg (z2bytes e n z) = z.
Proof.
  intros Hn Hf. apply int_fits_spec in Hf; [|exact Hn].
  unfold int_from_bytes. rewrite bytes2z_z2bytes. unfold zlen. rewrite z2bytes_length.
  pose proof (pow256_half n Hn) as Hh. pose proof (pow256_pos n) as Hp.
  set (M := 256 ^ Z.of_nat n) in *. set (h := M / 2) in *.
  destruct sg; cbn [andb].
  - destruct (Z_lt_ge_dec z 0) as [Hz|Hz].
    + replace (z mod M) with (z + M); [destruct (M <=? 2 * (z + M)) eqn:E; lia|].
      apply Z.mod_unique with (-1); lia.
    + rewrite Z.mod_small by lia. destruct (M <=? 2 * z) eqn:E; lia.
  - apply Z.mod_small. lia.
Qed.

Lemma int_from_bytes_fits e sg l : (0 < length l)%nat -> int_fits sg (length l) (int_from_bytes e sg l) = true.
Proof.
  intros Hn. apply int_fits_spec; [exact Hn|].
  unfold int_from_bytes. pose proof (bytes2z_bound e l) as Hb. unfold zlen in *.
  pose proof (pow256_half _ Hn) as Hh.
  set (M := 256 ^ Z.of_nat (length l)) in *. set (h := M / 2) in *.
  destruct sg; cbn [andb]; [|exact Hb].
  destruct (M <=? 2 * bytes2z e l) eqn:E; lia.
Qed.

Lemma z2bytes_int_from e sg l : z2bytes e (length l) (int_from_bytes e sg l) = l.
Proof.
  unfold int_from_bytes. destruct (sg && _) eqn:E; [|apply z2bytes_bytes2z].
  transitivity (z2bytes e (length l) (bytes2z e l)); [|apply z2bytes_bytes2z].
  unfold z2bytes. f_equal.
  rewrite <- (z2le_mod _ (bytes2z e l - _)), <- (z2le_mod _ (bytes2z e l)). unfold zlen. f_equal.
  replace (bytes2z e l - 256 ^ Z.of_nat (length l)) with (bytes2z e l + (-1) * 256 ^ Z.of_nat (length l)) by ring.
  apply Z_mod_plus_full.
Qed.

(** ** hexadecimal *)
Definition is_hex_code (c : Z) : bool := match hexval c with Some _ => true | None => false end.

Lemma hexval_range c h : hexval c = Some h -> 0 <= h < 16.
Proof.
  unfold hexval. intros H.
  destruct ((48 <=? c) && (c <=? 57)) eqn:E1; [injection H as <-; lia|].
  destruct ((97 <=? c) && (c <=? 102)) eqn:E2; [injection H as <-; lia|].
  destruct ((65 <=? c) && (c <=? 70)) eqn:E3; [injection H as <-; lia|discriminate].
Qed.

Lemma hexval_hexdigit d : 0 <= d < 16 -> hexval (hexdigit d) = Some d.
Proof.
  intros H. unfold hexdigit, hexval. destruct (d <? 10) eqn:E.
  - replace ((48 <=? 48 + d) && (48 + d <=? 57)) with true by lia. f_equal; lia.
  - replace ((48 <=? 87 + d) && (87 + d <=? 57)) with false by lia.
    replace ((97 <=? 87 + d) && (87 + d <=? 102)) with true by lia. f_equal; lia.
Qed.

Lemma hexdigit_range d : 0 <= d < 16 -> 48 <= hexdigit d <= 102.
Proof. unfold hexdigit. intros H. destruct (d <? 10) eqn:E; lia. Qed.

Lemma hex_length b : length (hex b) = (2 * length b)%nat.
Proof. induction b as [|x b IH]; cbn [hex length]; [reflexivity|]. rewrite IH. lia. Qed.

Lemma hex_ascii b : Forall (fun c => 48 <= c <= 102) (hex b).
Proof.
  induction b as [|x b IH]; cbn [hex]; [constructor|].
  pose proof (b2z_range x).
  repeat constructor; try assumption; apply hexdigit_range; lia.
Qed.

Lemma unhex_hex b : unhex_codes (hex b) = Some b.
Proof.
  induction b as [|x b IH]; cbn [hex unhex_codes]; [reflexivity|].
  pose proof (b2z_range x) as Hx.
  rewrite !hexval_hexdigit by lia. rewrite IH. do 2 f_equal.
  apply b2z_inj. rewrite b2z_z2b. lia.
Qed.

Lemma hex_codes_ascii_forallb b : forallb (fun c => c <? 128) (hex b) = true.
Proof.
  apply forallb_forall. intros c Hc. pose proof (hex_ascii b) as H.
  rewrite Forall_forall in H. specialize (H c Hc). lia.
Qed.

Lemma hex_codes_byte b : map b2z (map z2b (hex b)) = hex b.
Proof.
  apply map_b2z_z2b. pose proof (hex_ascii b) as H. eapply Forall_impl; [|exact H].
  cbn. intros c Hc. lia.
Qed.

Lemma unhexlify_hexlify b : unhexlify (VBytes (hexlify b)) = Ok b.
Proof. cbn. unfold hexlify. rewrite hex_codes_byte, unhex_hex. reflexivity. Qed.

Lemma unhexlify_hex_str b : unhexlify (VStr (hex b)) = Ok b.
Proof. cbn. rewrite hex_codes_ascii_forallb, unhex_hex. reflexivity. Qed.

(** unhex succeeds exactly on even-length digit strings *)
Lemma unhex_codes_some l :
  (exists b, unhex_codes l = Some b) <-> (Nat.even (length l) = true /\ forallb is_hex_code l = true).
Proof.
  assert (forall n l, (length l <= n)%nat ->
    ((exists b, unhex_codes l = Some b) <-> (Nat.even (length l) = true /\ forallb is_hex_code l = true))) as H.
  { clear l. induction n as [|n IH]; intros l Hl.
    - destruct l; cbn in Hl; [|lia]. cbn. split; intros _; [tauto|]. exists []. reflexivity.
    - destruct l as [|a [|c r]].
      + cbn. split; intros _; [tauto|]. exists []. reflexivity.
      + cbn. split; [intros [b Hb]; discriminate|intros [Hb _]; discriminate].
      + cbn [length] in Hl. specialize (IH r ltac:(lia)).
        change (length (a :: c :: r)) with (S (S (length r))). cbn [Nat.even forallb unhex_codes].
        unfold is_hex_code at 1 2.
        destruct (hexval a) as [h|]; [|cbn; split; [intros [b Hb]; discriminate|intros [_ Hb]; discriminate]].
        destruct (hexval c) as [m|]; [|cbn; split; [intros [b Hb]; discriminate|intros [_ Hb]; discriminate]].
        cbn [andb]. rewrite <- IH. split.
        * intros [b Hb]. destruct (unhex_codes r) as [t|]; [|discriminate]. exists t. reflexivity.
        * intros [t Ht]. rewrite Ht. eexists. reflexivity. }
  apply (H (length l)). lia.
Qed.

Lemma unhex_codes_length n : forall l b, (length l <= n)%nat -> unhex_codes l = Some b -> length l = (2 * length b)%nat.
Proof.
  induction n as [|n IH]; intros l b Hl H.
  - destruct l; cbn in Hl; [|lia]. cbn in H. injection H as <-. reflexivity.
  - destruct l as [|a [|c r]]; cbn [unhex_codes] in H.
    + injection H as <-. reflexivity.
    + discriminate.
    + destruct (hexval a); [|discriminate]. destruct (hexval c); [|discriminate].
      destruct (unhex_codes r) as [t|] eqn:E; [|discriminate]. injection H as <-.
      cbn [length] in *. specialize (IH r t ltac:(lia) E). lia.
Qed.
Lemma unhex_codes_len l b : unhex_codes l = Some b -> length l = (2 * length b)%nat.
Proof. apply (unhex_codes_length (length l)). lia. Qed.
