(** * L_IO: lemmas about BytesIO and the composition of reads and writes *)
From Coq Require Import Lia ZifyBool ZifyNat ZifyN.
From Verif Require Import M_Py M_UInt M_Writer M_Reader S_IO L_Bytes.
Ltac Zify.zify_post_hook ::= Z.div_mod_to_equations.

Lemma advance_0 s : advance 0 s = s.
Proof. destruct s as [c p]. unfold advance. cbn. rewrite Nat.add_0_r. reflexivity. Qed.
Lemma advance_advance a b s : advance a (advance b s) = advance (b + a) s.
Proof. destruct s as [c p]. unfold advance. cbn. rewrite Nat.add_assoc. reflexivity. Qed.
Lemma skipn_add {A} a b (l : list A) : skipn a (skipn b l) = skipn (b + a) l.
Proof. revert l. induction b as [|b IH]; intros l; [reflexivity|]. destruct l as [|x l]; cbn [skipn Nat.add]; [apply skipn_nil|apply IH]. Qed.
Lemma remaining_advance n s : remaining (advance n s) = skipn n (remaining s).
Proof. destruct s as [c p]. unfold remaining, advance. cbn. rewrite skipn_add. reflexivity. Qed.
Lemma skipn_app_exact {A} (a b : list A) : skipn (length a) (a ++ b) = b.
Proof. rewrite skipn_app, skipn_all, Nat.sub_diag. reflexivity. Qed.
Lemma firstn_app_exact {A} (a b : list A) : firstn (length a) (a ++ b) = a.
Proof. rewrite firstn_app, Nat.sub_diag, firstn_all, app_nil_r. reflexivity. Qed.
Lemma remaining_advance_app s a b : remaining s = a ++ b -> remaining (advance (length a) s) = b.
Proof. intros H. rewrite remaining_advance, H. apply skipn_app_exact. Qed.

(** ** BytesIO *)
Lemma bio_write_end b : writes (bio_write b) (zlen b) b.
Proof.
  intros pre. unfold bio_write, at_end. destruct b as [|x b].
  - rewrite app_nil_r. reflexivity.
  - cbn [content position]. rewrite firstn_all, Nat.sub_diag. cbn [repeat].
    rewrite (skipn_all2 pre) by (cbn; lia). rewrite !app_nil_r, app_length. reflexivity.
Qed.

Lemma bio_read_spec n s : 0 <= n <= maxsize ->
  bio_read n s = (Ok (firstn (Z.to_nat n) (remaining s)),
                  advance (length (firstn (Z.to_nat n) (remaining s))) s).
Proof.
  intros Hn. unfold bio_read.
  replace ((n <? - maxsize - 1) || (maxsize <? n)) with false by (unfold maxsize in *; lia).
  replace (n <? 0) with false by lia. fold (remaining s).
  destruct (Z.min_spec n (zlen (remaining s))) as [[H1 H2]|[H1 H2]]; rewrite H2.
  - unfold advance. rewrite firstn_length_le by (unfold zlen in *; lia). reflexivity.
  - unfold zlen in *. rewrite Nat2Z.id, firstn_all. rewrite firstn_all2 by lia. reflexivity.
Qed.

Lemma bio_read_exact d : zlen d <= maxsize -> reads (bio_read (zlen d)) d d.
Proof.
  intros Hd s rest H. pose proof (zlen_nonneg d).
  rewrite bio_read_spec by lia. rewrite H. unfold zlen. rewrite Nat2Z.id, firstn_app_exact. reflexivity.
Qed.

Lemma bio_read_exact_n n d : zlen d = n -> n <= maxsize -> reads (bio_read n) d d.
Proof. intros <-. apply bio_read_exact. Qed.

(** ** composition *)
Lemma writes_ret {R} (r : R) : writes (iret r) r [].
Proof. intros pre. rewrite app_nil_r. reflexivity. Qed.
Lemma reads_ret {A} (a : A) : reads (iret a) [] a.
Proof. intros s rest _. cbn [length]. rewrite advance_0. reflexivity. Qed.

Lemma writes_bind {R S} (m : io R) (f : R -> io S) r e1 e2 q :
  writes m r e1 -> writes (f r) q e2 -> writes (ibind m f) q (e1 ++ e2).
Proof. intros H1 H2 pre. unfold ibind. rewrite H1, H2, app_assoc. reflexivity. Qed.

Lemma reads_bind {A B} (m : io A) (f : A -> io B) a b e1 e2 :
  reads m e1 a -> reads (f a) e2 b -> reads (ibind m f) (e1 ++ e2) b.
Proof.
  intros H1 H2 s rest H. unfold ibind. rewrite <- app_assoc in H.
  rewrite (H1 _ _ H). apply remaining_advance_app in H.
  rewrite (H2 _ _ H), advance_advance, app_length. reflexivity.
Qed.

Lemma writes_bind_ret {R S} (m : io R) (f : R -> S) r e1 :
  writes m r e1 -> writes (x <-- m ; iret (f x)) (f r) e1.
Proof. intros H. rewrite <- (app_nil_r e1). eapply writes_bind; [exact H|apply writes_ret]. Qed.
Lemma writes_seq_ret {R S} (m : io R) (q : S) r e1 :
  writes m r e1 -> writes (m ;; iret q) q e1.
Proof. intros H. rewrite <- (app_nil_r e1). eapply writes_bind; [exact H|apply writes_ret]. Qed.
Lemma reads_bind_ret {A B} (m : io A) (f : A -> B) a e1 :
  reads m e1 a -> reads (x <-- m ; iret (f x)) e1 (f a).
Proof. intros H. rewrite <- (app_nil_r e1). eapply reads_bind; [exact H|apply reads_ret]. Qed.

Lemma reads_lift {A B} (m : io A) (f : A -> res B) a b e1 :
  reads m e1 a -> f a = Ok b -> reads (x <-- m ; ilift (f x)) e1 b.
Proof.
  intros H Hf. rewrite <- (app_nil_r e1). eapply reads_bind; [exact H|].
  rewrite Hf. intros s rest _. cbn. rewrite advance_0. reflexivity.
Qed.

Lemma writes_lift {R S} (m : res R) (f : R -> io S) r q e1 :
  m = Ok r -> writes (f r) q e1 -> writes (x <-- ilift m ; f x) q e1.
Proof. intros -> H pre. apply H. Qed.

Lemma refuses_raise {A} (e : exn) : refuses (@iraise A e) e.
Proof. intros s. reflexivity. Qed.
Lemma refuses_lift {A B} (m : res A) (f : A -> io B) e : m = Raise e -> refuses (x <-- ilift m ; f x) e.
Proof. intros -> s. reflexivity. Qed.
Lemma refuses_bind {A B} (m : io A) (f : A -> io B) e : refuses m e -> refuses (x <-- m ; f x) e.
Proof. intros H s. unfold ibind. rewrite H. reflexivity. Qed.

(** ** numbers *)
Lemma num_le_eq l : num_le l = le2z l.
Proof. unfold num_le. induction l as [|b l IH]; cbn [fold_right le2z]; [reflexivity|]. rewrite IH. reflexivity. Qed.
Lemma num_be_eq l : num_be l = le2z (rev l).
Proof.
  unfold num_be. rewrite <- (rev_involutive l) at 1. rewrite <- fold_left_rev_right, rev_involutive.
  induction (rev l) as [|b r IH]; cbn [fold_right le2z]; [reflexivity|]. rewrite IH. ring.
Qed.
Lemma num_eq e l : num e l = bytes2z e l.
Proof. destruct e; unfold num, bytes2z; [apply num_le_eq|apply num_be_eq]. Qed.

(** ** fixed-width integers *)
Definition type_signed (t : int_type) : bool :=
  match t with I8 | I16 | I32 | I64 => true | _ => false end.

Lemma type_fits t v : type_min t <= v <= type_max t <-> int_fits (type_signed t) (type_width t) v = true.
Proof.
  unfold int_fits, int_min, int_max.
  destruct t; cbn [type_min type_max type_signed type_width];
  repeat match goal with |- context [256 ^ ?k] => let x := eval vm_compute in (256 ^ k) in change (256 ^ k) with x end;
  lia.
Qed.

Lemma write_int_eq t v e : write_int t v e = pack_int e (type_signed t) (type_width t) v.
Proof. destruct t; reflexivity. Qed.
Lemma read_int_eq t e : read_int t e = unpack_int e (type_signed t) (type_width t).
Proof. destruct t; reflexivity. Qed.
Lemma type_width_pos t : (0 < type_width t)%nat.
Proof. destruct t; cbn; lia. Qed.
Lemma type_width_le t : Z.of_nat (type_width t) <= 8.
Proof. destruct t; cbn; lia. Qed.

Lemma pack_int_writes e sg n v : int_fits sg n v = true -> writes (pack_int e sg n v) (Z.of_nat n) (z2bytes e n v).
Proof.
  intros H. unfold pack_int. eapply writes_lift; [unfold struct_pack_int; rewrite H; reflexivity|].
  cbn [WriteBytes stream_write].
  replace (Z.of_nat n) with (zlen (z2bytes e n v)) by (unfold zlen; rewrite z2bytes_length; reflexivity).
  apply bio_write_end.
Qed.

Lemma pack_int_refuses e sg n v : int_fits sg n v = false -> refuses (pack_int e sg n v) StructError.
Proof. intros H. apply refuses_lift. unfold struct_pack_int. rewrite H. reflexivity. Qed.

Lemma unpack_int_reads e sg n enc : (0 < n)%nat -> Z.of_nat n <= 8 -> length enc = n ->
  reads (unpack_int e sg n) enc (int_from_bytes e sg enc).
Proof.
  intros Hn Hn8 Hl. eapply reads_lift.
  - apply bio_read_exact_n; [unfold zlen; rewrite Hl; reflexivity|unfold maxsize; lia].
  - unfold struct_unpack_int, zlen. rewrite Hl, Z.eqb_refl. reflexivity.
Qed.

Lemma pack_unpack e sg n v : (0 < n)%nat -> Z.of_nat n <= 8 -> int_fits sg n v = true ->
  reads (unpack_int e sg n) (z2bytes e n v) v.
Proof.
  intros Hn Hn8 Hf. rewrite <- (int_from_z2bytes e sg n v Hn Hf) at 2.
  apply unpack_int_reads; [exact Hn|exact Hn8|apply z2bytes_length].
Qed.

Lemma encodes_z2bytes t e v : type_min t <= v <= type_max t -> encodes t e v (z2bytes e (type_width t) v).
Proof.
  intros H. split; [apply z2bytes_length|]. rewrite num_eq, bytes2z_z2bytes.
  apply type_fits in H. apply int_fits_spec in H; [|apply type_width_pos].
  pose proof (pow256_half _ (type_width_pos t)). pose proof (pow256_pos (type_width t)).
  set (M := 256 ^ Z.of_nat (type_width t)) in *.
  destruct (Z_lt_ge_dec v 0) as [Hv|Hv].
  - right. split; [exact Hv|]. symmetry. destruct (type_signed t); [|lia]. apply Z.mod_unique with (-1); lia.
  - left. apply Z.mod_small. destruct (type_signed t); lia.
Qed.

Lemma encodes_unique t e v enc : encodes t e v enc -> type_min t <= v <= type_max t -> enc = z2bytes e (type_width t) v.
Proof.
  intros [Hl Hv] Hr. rewrite <- (z2bytes_bytes2z e enc), Hl. rewrite num_eq in Hv.
  unfold z2bytes. f_equal. rewrite <- (z2le_mod _ (bytes2z e enc)), <- (z2le_mod _ v). f_equal.
  destruct Hv as [->|[_ ->]]; [reflexivity|].
  replace (v + 256 ^ Z.of_nat (type_width t)) with (v + 1 * 256 ^ Z.of_nat (type_width t)) by ring.
  apply Z_mod_plus_full.
Qed.
