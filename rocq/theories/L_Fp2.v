(** * L_Fp2: ec_add transported to L_Group, and multiples of a point *)
From Coq Require Import ZArith Znumtheory Lia Bool List Field.
From Verif Require Import M_ECCurve L_Field S_EC L_EC L_EC3 L_Assoc L_Group L_Fp.
Import ListNotations.
Open Scope Z_scope.

(** p an odd prime, a nonsingular curve that does not contain the pair (0,0) *)
Section Points.
Variable c : curve.
Let p := c_p c. Let a := c_a c. Let b := c_b c.
Hypothesis Hp : prime p.
Hypothesis H2 : 2 < p.
Hypothesis Hns : ~ same p (4 * (a * a * a) + 27 * (b * b)) 0.
Hypothesis Hb : ~ same p b 0.
Let pos : 0 < p. Proof. lia. Qed.
Local Notation F := (fp p).
Local Notation "# z" := (inj p Hp z) (at level 1, format "# z").
Local Notation add := (fp_add p Hp). Local Notation mul := (fp_mul p Hp). Local Notation sub := (fp_sub p Hp).
Local Notation opp := (fp_opp p Hp). Local Notation div := (fp_div p Hp). Local Notation inv := (fp_inv p Hp).
Local Notation Fth := (fp_field p Hp).
Local Notation dec := (fp_dec p).
Local Notation curve_eq := (L_Assoc.curve_eq F add mul #a #b).
Local Notation padd := (L_Group.padd F #0 #1 add mul sub div dec #a).
Local Notation on := (L_Group.on F add mul #a #b).
Add Field FpField : Fth.

Lemma two_nz : add #1 #1 <> #0.
Proof. rewrite inj_add. intros E. apply inj_eq, cong_0 in E. apply Z.divide_pos_le in E; lia. Qed.
Lemma smooth (x : F) : add (mul (add (add #1 #1) #1) (mul x x)) #a = #0 -> add (add (mul (mul x x) x) (mul #a x)) #b <> #0.
Proof.
  intros E E'. apply Hns. apply same_cong. apply (inj_eq p Hp).
  assert (HA : #a = opp (mul (add (add #1 #1) #1) (mul x x))).
  { transitivity (sub (add (mul (add (add #1 #1) #1) (mul x x)) #a) (mul (add (add #1 #1) #1) (mul x x))); [ring|rewrite E; ring]. }
  assert (HB : #b = mul (add #1 #1) (mul (mul x x) x)).
  { transitivity (sub (sub (add (add (mul (mul x x) x) (mul #a x)) #b) (mul (mul x x) x)) (mul #a x)); [ring|rewrite E', HA; ring]. }
  assert (X : #(4 * (a * a * a) + 27 * (b * b)) = add (mul (add (add #1 #1) (add #1 #1)) (mul (mul #a #a) #a)) (mul (mul (add (add #1 #1) #1) (mul (add (add #1 #1) #1) (add (add #1 #1) #1))) (mul #b #b))).
  { rewrite !inj_add, !inj_mul, ?inj_add, ?inj_mul, ?inj_add. f_equal. }
  rewrite X, HA, HB. ring.
Qed.
Definition emb (P : Z * Z) : option (F * F) := if iszero P then None else Some (#(fst P), #(snd P)).
Lemma emb_inj P Q : is_point p a b P -> is_point p a b Q -> emb P = emb Q -> P = Q.
Proof.
  intros [HP _] [HQ _]. unfold emb. destruct (iszero P) eqn:ZP, (iszero Q) eqn:ZQ; try discriminate.
  - intros _. apply iszero_iff in ZP, ZQ. congruence.
  - intros E. assert (E1 : #(fst P) = #(fst Q)) by congruence. assert (E2 : #(snd P) = #(snd Q)) by congruence. apply inj_eq in E1, E2. exact (canon_eq p P Q HP HQ E1 E2).
Qed.
Lemma emb_on P : is_point p a b P -> on (emb P).
Proof.
  intros [_ [->|E]]; [exact I|]. unfold emb. destruct (iszero P); [exact I|]. cbn [L_Group.on]. unfold L_Assoc.curve_eq. apply same_cong in E. apply (inj_eq p Hp) in E.
  rewrite !inj_mul, !inj_add, ?inj_mul, ?inj_add. exact E.
Qed.
Lemma emb_affine x y : (x, y) <> (0, 0) -> emb (x, y) = Some (#x, #y).
Proof. intros N. unfold emb. destruct (iszero (x, y)) eqn:E; [apply iszero_iff in E; tauto|reflexivity]. Qed.
Lemma not_origin P : is_point p a b P -> P <> (0, 0) -> equation p a b (fst P) (snd P).
Proof. intros [_ [E|E]] N; [tauto|exact E]. Qed.
Lemma origin_off x y : equation p a b x y -> (x, y) <> (0, 0).
Proof. intros E X. assert (x = 0 /\ y = 0) as [-> ->] by (split; congruence). apply Hb. unfold equation, same in *. destruct E as [k E]. exists (- k). lia. Qed.
Lemma slope_ok l d n : ~ cong p d 0 -> cong p (l * d) n -> div #n #d = #l.
Proof.
  intros N E. apply (inj_eq p Hp) in E. rewrite <- inj_mul in E. rewrite <- E. field. intros X. apply N. apply (inj_eq p Hp), X.
Qed.
Ltac pull := rewrite ?inj_mul, ?inj_add, ?inj_sub, ?inj_opp, ?inj_mul, ?inj_add, ?inj_sub, ?inj_mul, ?inj_add, ?inj_sub.
Lemma finish_ok l x1 y1 x2 x3 y3 : cong p x3 (l * l - x1 - x2) -> cong p y3 (l * (x1 - x3) - y1) -> (x3, y3) <> (0, 0) ->
  emb (x3, y3) = L_Group.fin F mul sub #l #x1 #y1 #x2.
Proof.
  intros X Y N. rewrite (emb_affine _ _ N). unfold fin, third_x, third_y.
  assert (#x3 = sub (sub (mul #l #l) #x1) #x2) as <- by (pull; apply inj_eq, X). f_equal. f_equal. pull. apply inj_eq, Y.
Qed.
Lemma ncong_sub x y : ~ cong p x y -> ~ cong p (x - y) 0.
Proof. intros N E. apply N. apply cong_0_iff, E. Qed.
Lemma emb_sum P Q R : is_point p a b P -> is_point p a b Q -> sum p a P Q R -> emb R = padd (emb P) (emb Q).
Proof.
  intros HP HQ S. destruct S as [Q|P|x1 y1 x2 y2 N1 N2 X Y|x1 y1 x2 y2 l x3 y3 N1 N2 X L E1 E2 C|x1 y1 x2 y2 l x3 y3 N1 N2 X Y Y0 L E1 E2 C].
  - reflexivity.
  - change (emb (0, 0)) with (@None (F * F)). destruct (emb P) as [[? ?]|]; reflexivity.
  - rewrite (emb_affine _ _ N1), (emb_affine _ _ N2). change (emb (0, 0)) with (@None (F * F)). cbn [L_Group.padd]. apply same_cong in X, Y.
    destruct (dec #x1 #x2) as [_|n]; [|exfalso; apply n, inj_eq, X]. destruct (dec #y1 #y2) as [E|]; [|reflexivity].
    destruct (dec #y1 #0) as [|n]; [reflexivity|]. exfalso. apply n. apply inj_eq in E. apply inj_eq. exact (both_signs p y1 y2 Hp H2 E Y).
  - assert (N3 : (x3, y3) <> (0, 0)).
    { apply origin_off. apply not_origin in HP; [|exact N1]. apply not_origin in HQ; [|exact N2]. unfold equation in *. cbn [fst snd] in HP, HQ. rewrite same_cong in *.
      apply (third_point p a b x1 y1 x2 l); try assumption. left. split; [assumption|]. exists y2. split; assumption. }
    rewrite (emb_affine _ _ N1), (emb_affine _ _ N2). cbn [L_Group.padd]. rewrite same_cong in X, L, E1, E2.
    destruct (dec #x1 #x2) as [E|_]; [apply inj_eq in E; tauto|]. unfold chord. rewrite !inj_sub. rewrite (slope_ok l _ _ (ncong_sub _ _ X) L). apply finish_ok; assumption.
  - assert (N3 : (x3, y3) <> (0, 0)).
    { apply origin_off. apply not_origin in HP; [|exact N1]. unfold equation in *. cbn [fst snd] in HP. rewrite same_cong in *.
      apply (third_point p a b x1 y1 x1 l); try assumption. right. split; [reflexivity|assumption]. }
    rewrite (emb_affine _ _ N1), (emb_affine _ _ N2). cbn [L_Group.padd]. rewrite same_cong in X, Y, Y0, L, E1, E2.
    destruct (dec #x1 #x2) as [_|n]; [|exfalso; apply n, inj_eq, X]. destruct (dec #y1 #y2) as [_|n]; [|exfalso; apply n, inj_eq, Y].
    destruct (dec #y1 #0) as [n|_]; [apply inj_eq in n; tauto|]. unfold tangent.
    assert (D : ~ cong p (2 * y1) 0). { intros D. apply (cong_mul_0 p _ _ Hp) in D. destruct D as [D|D]; [|tauto]. apply cong_0, Z.divide_pos_le in D; lia. }
    assert (S : div (add (mul (add (add #1 #1) #1) (mul #x1 #x1)) #a) (mul (add #1 #1) #y1) = #l).
    { rewrite <- (slope_ok l _ _ D L). f_equal; pull; f_equal. }
    rewrite S. apply finish_ok; assumption.
Qed.
Lemma add_point P Q : is_point p a b P -> is_point p a b Q -> is_point p a b (ec_add c P Q).
Proof. intros HP HQ. exact (sum_point p a b P Q _ Hp H2 HP HQ (ec_add_sum c P Q Hp H2 HP HQ)). Qed.
Lemma add_emb P Q : is_point p a b P -> is_point p a b Q -> emb (ec_add c P Q) = padd (emb P) (emb Q).
Proof. intros HP HQ. apply emb_sum; try assumption. exact (ec_add_sum c P Q Hp H2 HP HQ). Qed.
Theorem add_assoc P Q R : is_point p a b P -> is_point p a b Q -> is_point p a b R ->
  ec_add c (ec_add c P Q) R = ec_add c P (ec_add c Q R).
Proof.
  intros HP HQ HR. pose proof (add_point _ _ HP HQ) as H4. pose proof (add_point _ _ HQ HR) as H5.
  apply emb_inj; [apply add_point; assumption|apply add_point; assumption|]. rewrite !add_emb by assumption.
  apply (L_Group.padd_assoc F #0 #1 add mul sub opp div inv Fth dec #a #b two_nz smooth); apply emb_on; assumption.
Qed.
Theorem add_cancel P P' Q : is_point p a b P -> is_point p a b P' -> is_point p a b Q -> ec_add c P Q = ec_add c P' Q -> P = P'.
Proof.
  intros HP HP' HQ E. apply (f_equal emb) in E. rewrite !add_emb in E by assumption. apply emb_inj; [exact HP|exact HP'|].
  apply (L_Group.cancel_r F #0 #1 add mul sub opp div inv Fth dec #a #b two_nz smooth _ _ (emb Q)); try (apply emb_on; assumption). exact E.
Qed.
End Points.
