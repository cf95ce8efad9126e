(** * L_Hex: hexadecimal text, WriteBytes *)
From Coq Require Import Lia ZifyBool ZifyNat ZifyN.
From Verif Require Import M_Py M_UInt M_Writer M_Reader S_IO L_Bytes L_IO.
Ltac Zify.zify_post_hook ::= Z.div_mod_to_equations.

Lemma is_hex_code_iff c : is_hex_code c = true <-> hex_digit_code c.
Proof.
  unfold is_hex_code, hexval, hex_digit_code.
  destruct ((48 <=? c) && (c <=? 57)) eqn:E1; [split; [lia|reflexivity]|].
  destruct ((97 <=? c) && (c <=? 102)) eqn:E2; [split; [lia|reflexivity]|].
  destruct ((65 <=? c) && (c <=? 70)) eqn:E3; [split; [lia|reflexivity]|].
  split; [discriminate|lia].
Qed.

Lemma hex_text_iff l : hex_text l <-> exists b, unhex_codes l = Some b.
Proof.
  unfold hex_text. rewrite unhex_codes_some, Nat.even_spec, forallb_forall, Forall_forall.
  split; intros [H1 H2]; (split; [exact H1|]); intros c Hc; apply is_hex_code_iff; auto.
Qed.

Lemma hexval_lower c : hexval (lower c) = hexval c.
Proof.
  unfold lower. destruct ((65 <=? c) && (c <=? 90)) eqn:E; [|reflexivity].
  unfold hexval.
  replace ((48 <=? c + 32) && (c + 32 <=? 57)) with false by lia.
  replace ((48 <=? c) && (c <=? 57)) with false by lia.
  replace ((97 <=? c) && (c <=? 102)) with false by lia.
  replace ((65 <=? c + 32) && (c + 32 <=? 70)) with false by lia.
  destruct ((65 <=? c) && (c <=? 70)) eqn:E2.
  - replace ((97 <=? c + 32) && (c + 32 <=? 102)) with true by lia. f_equal; lia.
  - replace ((97 <=? c + 32) && (c + 32 <=? 102)) with false by lia. reflexivity.
Qed.

Lemma hexdigit_hexval c h : hexval c = Some h -> hexdigit h = lower c.
Proof.
  unfold hexval, lower, hexdigit. intros H.
  destruct ((48 <=? c) && (c <=? 57)) eqn:E1.
  { injection H as <-. replace ((65 <=? c) && (c <=? 90)) with false by lia.
    replace (c - 48 <? 10) with true by lia. lia. }
  destruct ((97 <=? c) && (c <=? 102)) eqn:E2.
  { injection H as <-. replace ((65 <=? c) && (c <=? 90)) with false by lia.
    replace (c - 87 <? 10) with false by lia. lia. }
  destruct ((65 <=? c) && (c <=? 70)) eqn:E3; [|discriminate].
  injection H as <-. replace ((65 <=? c) && (c <=? 90)) with true by lia.
  replace (c - 55 <? 10) with false by lia. lia.
Qed.

Lemma pair_ind {A} (P : list A -> Prop) :
  P [] -> (forall a, P [a]) -> (forall a b r, P r -> P (a :: b :: r)) -> forall l, P l.
Proof.
  intros H0 H1 H2 l. assert (P l /\ forall a, P (a :: l)) as [H _]; [|exact H].
  induction l as [|x l [IH1 IH2]]; [split; auto|]. split; [apply IH2|]. intros a. apply H2, IH1.
Qed.

Lemma unhex_lower l : unhex_codes (map lower l) = unhex_codes l.
Proof.
  induction l as [|a|a b r IH] using pair_ind; [reflexivity|reflexivity|].
  cbn [map unhex_codes]. rewrite !hexval_lower, IH. reflexivity.
Qed.

Lemma unhex_denotes l d : unhex_codes l = Some d <-> hex_denotes l d.
Proof.
  unfold hex_denotes. split.
  - revert d. induction l as [|a|a b r IH] using pair_ind; intros d H; cbn [unhex_codes] in H.
    + injection H as <-. reflexivity.
    + discriminate.
    + destruct (hexval a) as [h|] eqn:Ea; [|discriminate].
      destruct (hexval b) as [g|] eqn:Eb; [|discriminate].
      destruct (unhex_codes r) as [t|] eqn:Er; [|discriminate].
      assert (d = z2b (16 * h + g) :: t) as -> by congruence. cbn [map hex]. rewrite (IH t eq_refl).
      pose proof (hexval_range _ _ Ea). pose proof (hexval_range _ _ Eb).
      rewrite z2b_small by lia.
      replace ((16 * h + g) / 16) with h by lia. replace ((16 * h + g) mod 16) with g by lia.
      rewrite (hexdigit_hexval _ _ Ea), (hexdigit_hexval _ _ Eb). reflexivity.
  - intros H. rewrite <- unhex_lower, H. apply unhex_hex.
Qed.

Lemma hex_inj a b : hex a = hex b -> a = b.
Proof. intros H. pose proof (unhex_hex a) as Ha. rewrite H, unhex_hex in Ha. congruence. Qed.

Lemma hex_denotes_unique l a b : hex_denotes l a -> hex_denotes l b -> a = b.
Proof. unfold hex_denotes. intros H1 H2. apply hex_inj. congruence. Qed.
Lemma hex_text_denotes l : hex_text l -> exists d, hex_denotes l d /\ unhex_codes l = Some d.
Proof. intros H. apply hex_text_iff in H as [d H]. exists d. split; [apply unhex_denotes|]; exact H. Qed.
Lemma hex_denotes_text l d : hex_denotes l d -> hex_text l.
Proof. intros H. apply hex_text_iff. exists d. apply unhex_denotes, H. Qed.
Lemma hex_denotes_length l d : hex_denotes l d -> length l = (2 * length d)%nat.
Proof. intros H. apply unhex_codes_len, unhex_denotes, H. Qed.
Lemma not_hex_text l : ~ hex_text l -> unhex_codes l = None.
Proof. intros H. destruct (unhex_codes l) eqn:E; [|reflexivity]. exfalso. apply H, hex_text_iff. eauto. Qed.
Lemma hex_text_dec l : hex_text l \/ ~ hex_text l.
Proof. destruct (unhex_codes l) eqn:E; [left|right]; rewrite hex_text_iff; [eauto|intros [b H]; congruence]. Qed.
Lemma hex_text_hex b : hex_text (hex b).
Proof. apply hex_text_iff. exists b. apply unhex_hex. Qed.
Lemma hex_denotes_hex b : hex_denotes (hex b) b.
Proof. apply unhex_denotes, unhex_hex. Qed.
Lemma lower_hex b : map lower (hex b) = hex b.
Proof. apply (hex_denotes_hex b). Qed.

(** ** WriteBytes *)
Lemma WriteBytes_false b : writes (WriteBytes (VBytes b) false) (zlen b) b.
Proof. apply bio_write_end. Qed.
Lemma WriteBytes_false_ba b : writes (WriteBytes (VBytearray b) false) (zlen b) b.
Proof. apply bio_write_end. Qed.
Lemma WriteBytes_hex b d : hex_denotes (map b2z b) d -> writes (WriteBytes (VBytes b) true) (zlen d) d.
Proof. intros H. apply unhex_denotes in H. unfold WriteBytes, unhexlify. rewrite H. apply bio_write_end. Qed.
Lemma WriteBytes_nohex b : ~ hex_text (map b2z b) -> writes (WriteBytes (VBytes b) true) (zlen b) b.
Proof. intros H. apply not_hex_text in H. unfold WriteBytes, unhexlify. rewrite H. apply bio_write_end. Qed.
Lemma WriteBytes_ba_eq b u : WriteBytes (VBytearray b) u = WriteBytes (VBytes b) u.
Proof. reflexivity. Qed.

Lemma hex_text_ascii s : hex_text s -> forallb (fun c => c <? 128) s = true.
Proof.
  intros [_ H]. apply forallb_forall. rewrite Forall_forall in H. intros c Hc. apply H in Hc.
  unfold hex_digit_code in Hc. lia.
Qed.
Lemma WriteBytes_str_hex s d : hex_denotes s d -> writes (WriteBytes (VStr s) true) (zlen d) d.
Proof.
  intros H. pose proof (hex_text_ascii _ (hex_denotes_text _ _ H)) as Ha. apply unhex_denotes in H.
  unfold WriteBytes, unhexlify. rewrite Ha, H. apply bio_write_end.
Qed.
Lemma WriteBytes_str_nohex s : ~ hex_text s ->
  (Forall (fun c => c < 128) s -> refuses (WriteBytes (VStr s) true) TypeError) /\
  (~ Forall (fun c => c < 128) s -> refuses (WriteBytes (VStr s) true) ValueError).
Proof.
  intros H. apply not_hex_text in H. unfold WriteBytes, unhexlify.
  destruct (forallb (fun c => c <? 128) s) eqn:E.
  - rewrite forallb_forall in E. rewrite H. split; [intros _ st; reflexivity|].
    intros K. destruct K. apply Forall_forall. intros x Hx. specialize (E x Hx). lia.
  - split; [|intros _ st; reflexivity]. intros K. exfalso. enough (forallb (fun c => c <? 128) s = true) by congruence.
    apply forallb_forall. rewrite Forall_forall in K. intros x Hx. specialize (K x Hx). lia.
Qed.
Lemma WriteBytes_str_false s : refuses (WriteBytes (VStr s) false) TypeError.
Proof. apply refuses_raise. Qed.
