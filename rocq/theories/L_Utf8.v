(** * L_Utf8: the encoder is the inverse of the strict decoder *)
From Coq Require Import Lia ZifyBool ZifyNat ZifyN.
From Verif Require Import M_Py M_UInt M_Writer M_Reader S_IO L_Bytes L_IO.
Ltac Zify.zify_post_hook ::= Z.div_mod_to_equations.

Lemma cont_ok z : 0 <= z < 64 -> cont (z2b (128 + z)) = Some z.
Proof.
  intros H. unfold cont. rewrite z2b_small by lia.
  replace ((128 <=? 128 + z) && (128 + z <? 192)) with true by lia. f_equal; lia.
Qed.
Lemma cont_inv b c : cont b = Some c -> 0 <= c < 64 /\ b = z2b (128 + c).
Proof.
  unfold cont. destruct ((128 <=? b2z b) && (b2z b <? 192)) eqn:E; [|discriminate].
  intros H. injection H as <-. split; [lia|]. replace (128 + (b2z b - 128)) with (b2z b) by lia.
  symmetry. apply z2b_b2z.
Qed.

Lemma utf8_decode_char c r : scalar c ->
  utf8_decode (utf8_char c ++ r) = option_map (cons c) (utf8_decode r).
Proof.
  intros Hc. unfold scalar in Hc. unfold utf8_char.
  destruct (c <? 128) eqn:E1.
  { cbn [app utf8_decode]. rewrite z2b_small by lia. rewrite E1. reflexivity. }
  destruct (c <? 2048) eqn:E2.
  { cbn [app utf8_decode]. rewrite (z2b_small (192 + _)) by lia.
    replace (192 + c / 64 <? 128) with false by lia. replace (192 + c / 64 <? 194) with false by lia.
    replace (192 + c / 64 <? 224) with true by lia. rewrite cont_ok by lia.
    replace ((192 + c / 64 - 192) * 64 + c mod 64) with c by lia. reflexivity. }
  destruct (c <? 65536) eqn:E3.
  { cbn [app utf8_decode]. rewrite (z2b_small (224 + _)) by lia.
    replace (224 + c / 4096 <? 128) with false by lia. replace (224 + c / 4096 <? 194) with false by lia.
    replace (224 + c / 4096 <? 224) with false by lia. replace (224 + c / 4096 <? 240) with true by lia.
    rewrite !cont_ok by lia.
    replace ((224 + c / 4096 - 224) * 4096 + c / 64 mod 64 * 64 + c mod 64) with c by lia.
    replace ((c <? 2048) || (55296 <=? c) && (c <=? 57343)) with false by lia. reflexivity. }
  cbn [app utf8_decode]. rewrite (z2b_small (240 + _)) by lia.
  replace (240 + c / 262144 <? 128) with false by lia. replace (240 + c / 262144 <? 194) with false by lia.
  replace (240 + c / 262144 <? 224) with false by lia. replace (240 + c / 262144 <? 240) with false by lia.
  replace (240 + c / 262144 <? 245) with true by lia.
  rewrite !cont_ok by lia.
  replace ((240 + c / 262144 - 240) * 262144 + c / 4096 mod 64 * 4096 + c / 64 mod 64 * 64 + c mod 64) with c by lia.
  replace ((c <? 65536) || (1114111 <? c)) with false by lia. reflexivity.
Qed.

Lemma utf8_decode_encode s : scalar_text s -> utf8_decode (utf8_chars s) = Some s.
Proof.
  induction 1 as [|c s Hc Hs IH]; [reflexivity|]. cbn [utf8_chars].
  rewrite utf8_decode_char, IH by exact Hc. reflexivity.
Qed.

Lemma scalar_not_surrogate s : scalar_text s -> existsb is_surrogate s = false.
Proof.
  induction 1 as [|c s Hc Hs IH]; [reflexivity|]. cbn [existsb]. rewrite IH, orb_false_r.
  unfold is_surrogate, scalar in *. lia.
Qed.
Lemma utf8_encode_ok s : scalar_text s -> utf8_encode s = Ok (utf8_chars s).
Proof. intros H. unfold utf8_encode. rewrite scalar_not_surrogate by exact H. reflexivity. Qed.
Lemma utf8_encode_bad s : Forall code_point s -> ~ scalar_text s -> utf8_encode s = Raise UnicodeError.
Proof.
  intros Hc Hn. unfold utf8_encode. destruct (existsb is_surrogate s) eqn:E; [reflexivity|].
  exfalso. apply Hn. unfold scalar_text. rewrite Forall_forall in *. intros c Hin. specialize (Hc c Hin).
  destruct (is_surrogate c) eqn:Es.
  - assert (existsb is_surrogate s = true) by (apply existsb_exists; eauto). congruence.
  - unfold code_point, scalar, is_surrogate in *. lia.
Qed.

(** strictness: only the encoder's output decodes *)
Lemma utf8_decode_inv l : forall s, utf8_decode l = Some s -> scalar_text s /\ l = utf8_chars s.
Proof.
  assert (forall n l, (length l <= n)%nat -> forall s, utf8_decode l = Some s -> scalar_text s /\ l = utf8_chars s) as H; [|intros s; apply (H _ _ (le_n _))].
  clear l. induction n as [|n IH]; intros l Hl s H.
  { destruct l; [|cbn in Hl; lia]. cbn in H. injection H as <-. split; [constructor|reflexivity]. }
  destruct l as [|b0 r0]; [cbn in H; injection H as <-; split; [constructor|reflexivity]|].
  cbn [length] in Hl. cbn [utf8_decode] in H. pose proof (b2z_range b0) as Hb0.
  assert (Hb0' : b0 = z2b (b2z b0)) by (symmetry; apply z2b_b2z).
  destruct (b2z b0 <? 128) eqn:E1.
  { destruct (utf8_decode r0) as [t|] eqn:Er; [|discriminate]. cbn in H. injection H as <-.
    destruct (IH r0 ltac:(lia) _ Er) as [Ht ->]. split; [constructor; [left; lia|exact Ht]|].
    cbn [utf8_chars]. unfold utf8_char. rewrite E1. cbn [app]. rewrite z2b_b2z. reflexivity. }
  destruct (b2z b0 <? 194) eqn:E2; [discriminate|].
  destruct (b2z b0 <? 224) eqn:E3.
  { destruct r0 as [|b1 r1]; [discriminate|]. destruct (cont b1) as [c1|] eqn:C1; [|discriminate].
    apply cont_inv in C1 as [C1 ->].
    destruct (utf8_decode r1) as [t|] eqn:Er; [|discriminate]. cbn [option_map] in H. injection H as <-. cbn [length] in Hl.
    destruct (IH r1 ltac:(lia) _ Er) as [Ht ->].
    set (c := (b2z b0 - 192) * 64 + c1) in *.
    split; [constructor; [left; lia|exact Ht]|].
    cbn [utf8_chars]. unfold utf8_char. replace (c <? 128) with false by lia. replace (c <? 2048) with true by lia.
    cbn [app]. f_equal; [rewrite Hb0' at 1; f_equal; lia|]. f_equal. f_equal. lia. }
  destruct (b2z b0 <? 240) eqn:E4.
  { destruct r0 as [|b1 [|b2 r2]]; [discriminate|discriminate|].
    destruct (cont b1) as [c1|] eqn:C1; [|discriminate].
    destruct (cont b2) as [c2|] eqn:C2; [|discriminate].
    apply cont_inv in C1 as [C1 ->]. apply cont_inv in C2 as [C2 ->].
    cbv zeta in H. set (c := (b2z b0 - 224) * 4096 + c1 * 64 + c2) in *.
    destruct ((c <? 2048) || ((55296 <=? c) && (c <=? 57343))) eqn:E5; [discriminate|].
    destruct (utf8_decode r2) as [t|] eqn:Er; [|discriminate]. cbn [option_map] in H. injection H as <-. cbn [length] in Hl.
    destruct (IH r2 ltac:(lia) _ Er) as [Ht ->].
    split; [constructor; [unfold scalar; lia|exact Ht]|].
    cbn [utf8_chars]. unfold utf8_char. replace (c <? 128) with false by lia. replace (c <? 2048) with false by lia.
    replace (c <? 65536) with true by lia.
    cbn [app]. f_equal; [rewrite Hb0' at 1; f_equal; lia|]. f_equal; [f_equal; lia|]. f_equal. f_equal. lia. }
  destruct (b2z b0 <? 245) eqn:E5; [|discriminate].
  destruct r0 as [|b1 [|b2 [|b3 r3]]]; [discriminate|discriminate|discriminate|].
  destruct (cont b1) as [c1|] eqn:C1; [|discriminate].
  destruct (cont b2) as [c2|] eqn:C2; [|discriminate].
  destruct (cont b3) as [c3|] eqn:C3; [|discriminate].
  apply cont_inv in C1 as [C1 ->]. apply cont_inv in C2 as [C2 ->]. apply cont_inv in C3 as [C3 ->].
  cbv zeta in H. set (c := (b2z b0 - 240) * 262144 + c1 * 4096 + c2 * 64 + c3) in *.
  destruct ((c <? 65536) || (1114111 <? c)) eqn:E6; [discriminate|].
  destruct (utf8_decode r3) as [t|] eqn:Er; [|discriminate]. cbn [option_map] in H. injection H as <-. cbn [length] in Hl.
  destruct (IH r3 ltac:(lia) _ Er) as [Ht ->].
  split; [constructor; [unfold scalar; lia|exact Ht]|].
  cbn [utf8_chars]. unfold utf8_char. replace (c <? 128) with false by lia. replace (c <? 2048) with false by lia.
  replace (c <? 65536) with false by lia.
  cbn [app]. f_equal; [rewrite Hb0' at 1; f_equal; lia|]. f_equal; [f_equal; lia|]. f_equal; [f_equal; lia|]. f_equal. f_equal. lia.
Qed.

Lemma utf8_decode_iff b s : utf8_decode b = Some s <-> scalar_text s /\ b = utf8_chars s.
Proof. split; [apply utf8_decode_inv|]. intros [Hs ->]. apply utf8_decode_encode, Hs. Qed.

Lemma utf8_exists s : scalar_text s <-> exists b, utf8_decode b = Some s.
Proof.
  split; [intros H; exists (utf8_chars s); apply utf8_decode_encode, H|]. intros [b Hb]. apply utf8_decode_inv in Hb. apply Hb.
Qed.
Lemma utf8_unique s a b : utf8_decode a = Some s -> utf8_decode b = Some s -> a = b.
Proof. intros Ha Hb. apply utf8_decode_inv in Ha as [_ ->]. apply utf8_decode_inv in Hb as [_ ->]. reflexivity. Qed.
