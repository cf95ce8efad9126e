(** * L_Assoc: chord-and-tangent addition over a field is a commutative group *)
From Coq Require Import Field Ring Setoid.
Section Curve.
Variable F : Type.
Variables (f0 f1 : F) (fadd fmul fsub : F -> F -> F) (fopp : F -> F) (fdiv : F -> F -> F) (finv : F -> F).
Hypothesis Fth : field_theory f0 f1 fadd fmul fsub fopp fdiv finv (@eq F).
Hypothesis dec : forall a b : F, {a = b} + {a <> b}.
Add Field FF : Fth.
Local Notation "0" := f0. Local Notation "1" := f1.
Local Infix "+" := fadd. Local Infix "*" := fmul. Local Infix "-" := fsub. Local Infix "/" := fdiv. Local Notation "- x" := (fopp x).
Local Notation "2" := (1 + 1). Local Notation "3" := (1 + 1 + 1).
Variables A B : F.
Hypothesis two : 2 <> 0.

Definition curve_eq (x y : F) := y * y = x * x * x + A * x + B.
Definition third_x (l x1 x2 : F) := l * l - x1 - x2.
Definition third_y (l x1 y1 x3 : F) := l * (x1 - x3) - y1.
Definition chord x1 y1 x2 y2 := (y1 - y2) / (x1 - x2).
Definition tangent x1 y1 := (3 * (x1 * x1) + A) / (2 * y1).
Ltac prep := unfold curve_eq, third_x, third_y, chord, tangent in *.

Lemma int_dom a b : a * b = 0 -> a = 0 \/ b = 0.
Proof.
  intros E. destruct (dec a 0) as [|N]; [auto|]. right. transitivity (a * b / a); [field; exact N|]. rewrite E. field. exact N.
Qed.
Lemma nz e t d : t <> 0 -> d <> 0 -> e = t * d -> e <> 0.
Proof. intros T D -> E. apply int_dom in E. tauto. Qed.
Lemma nz2 a b : a <> 0 -> b <> 0 -> a * b <> 0.
Proof. intros X Y E. apply int_dom in E. tauto. Qed.
Lemma sub_nz a b : a <> b -> a - b <> 0.
Proof. intros N E. apply N. replace a with (a - b + b) by ring. rewrite E. ring. Qed.
Lemma nz_sub a b : a - b <> 0 -> a <> b.
Proof. intros N ->. apply N. ring. Qed.


(** A line of slope l through two (possibly equal) points of the curve.  Written without division,
    chords and tangents are the same thing; [meets] says that the slope is determined. *)
Definition line x1 y1 x2 y2 l := y1 - y2 = l * (x1 - x2) /\ l * (y1 + y2) = x1 * x1 + x1 * x2 + x2 * x2 + A.
Definition meets x1 y1 x2 y2 := x1 - x2 <> 0 \/ y1 + y2 <> 0.
Lemma by_sub a b : a - b = 0 -> a = b.
Proof. intros E. replace a with (a - b + b) by ring. rewrite E. ring. Qed.
Lemma cancel d a b : d <> 0 -> d * (a - b) = 0 -> a = b.
Proof. intros N E. apply int_dom in E. destruct E as [E|E]; [tauto|]. apply by_sub, E. Qed.
Lemma sub_of a b : a = b -> a - b = 0.
Proof. intros ->. ring. Qed.
Lemma line_chord x1 y1 x2 y2 l : curve_eq x1 y1 -> curve_eq x2 y2 -> x1 - x2 <> 0 -> l = chord x1 y1 x2 y2 -> line x1 y1 x2 y2 l.
Proof.
  unfold curve_eq, chord, line. intros H1 H2 N ->. assert (E : y1 - y2 = (y1 - y2) / (x1 - x2) * (x1 - x2)) by (field; exact N).
  set (l := (y1 - y2) / (x1 - x2)) in *. clearbody l. split; [exact E|]. apply (cancel (x1 - x2)); [exact N|].
  transitivity ((y1 * y1 - (x1 * x1 * x1 + A * x1 + B)) - (y2 * y2 - (x2 * x2 * x2 + A * x2 + B)) - (y1 + y2) * (y1 - y2 - l * (x1 - x2))); [ring|].
  rewrite (sub_of _ _ H1), (sub_of _ _ H2), (sub_of _ _ E). ring.
Qed.
Lemma line_tangent x1 y1 l : y1 <> 0 -> l = tangent x1 y1 -> line x1 y1 x1 y1 l.
Proof. unfold tangent, line. intros N ->. split; [ring|]. field. split; [exact N|exact two]. Qed.
(** the third intersection, mirrored, is on the curve *)
Lemma line_third x1 y1 x2 y2 l x4 y4 : curve_eq x1 y1 -> line x1 y1 x2 y2 l -> x4 = third_x l x1 x2 -> y4 = third_y l x1 y1 x4 -> curve_eq x4 y4.
Proof.
  unfold curve_eq, line, third_x, third_y. intros H1 [E1 E2] X Y. apply by_sub. subst y4.
  assert (X' : l * l - x1 - x2 - x4 = 0) by (rewrite <- X; ring).
  transitivity ((y1 * y1 - (x1 * x1 * x1 + A * x1 + B)) + (x4 - x1) * (l * (y1 + y2) - (x1 * x1 + x1 * x2 + x2 * x2 + A)) + (x4 - x1) * l * (y1 - y2 - l * (x1 - x2))
     + (l * l - x1 - x2 - x4) * ((x4 - x1) * (x4 - x2))); [ring|].
  rewrite (sub_of _ _ H1), (sub_of _ _ E1), (sub_of _ _ E2), X'. ring.
Qed.
Lemma line_unique x1 y1 x2 y2 l l' : meets x1 y1 x2 y2 -> line x1 y1 x2 y2 l -> line x1 y1 x2 y2 l' -> l = l'.
Proof.
  intros [N|N] [E1 E2] [E1' E2']; apply (cancel _ _ _ N).
  - transitivity (l * (x1 - x2) - l' * (x1 - x2)); [ring|]. rewrite <- E1, <- E1'. ring.
  - transitivity (l * (y1 + y2) - l' * (y1 + y2)); [ring|]. rewrite E2, E2'. ring.
Qed.
(** The slope through P4 = P1+P2 and P3, when l (through P1, P2) and m (through P2, P3) differ:
    it is -(l+k) with k (l-m) = x3 - x1. *)
Lemma line_y x1 y1 x2 y2 l : line x1 y1 x2 y2 l -> y1 = y2 + l * (x1 - x2).
Proof. intros [E _]. rewrite <- E. ring. Qed.
Lemma slope6 x1 y1 x2 y2 x3 y3 x4 y4 l m k l6 :
  line x1 y1 x2 y2 l -> line x3 y3 x2 y2 m -> l - m <> 0 -> k * (l - m) = x3 - x1 ->
  x4 = third_x l x1 x2 -> y4 = third_y l x1 y1 x4 -> line x4 y4 x3 y3 l6 -> meets x4 y4 x3 y3 -> l6 = - (l + k).
Proof.
  unfold third_x, third_y. intros L1 L3 N K X Y L6 M. pose proof (line_y _ _ _ _ _ L1) as Y1. pose proof (line_y _ _ _ _ _ L3) as Y3. destruct L1 as [_ E2], L3 as [_ E4].
  apply sub_of in E2, E4. pose proof (sub_of _ _ K) as K0.
  assert (P : y4 - y3 = - (l + k) * (x4 - x3)).
  { apply (cancel (l - m) _ _ N). subst y4 x4 y1 y3.
    transitivity ((k * (l - m) - (x3 - x1)) * (l * l - x1 - x2 - x3)
      - (l * (y2 + l * (x1 - x2) + y2) - (x1 * x1 + x1 * x2 + x2 * x2 + A)) + (m * (y2 + m * (x3 - x2) + y2) - (x3 * x3 + x3 * x2 + x2 * x2 + A))); [ring|].
    rewrite E2, E4, K0. ring. }
  destruct (dec (x4 - x3) 0) as [Z|Z].
  - destruct M as [M|M]; [tauto|]. apply (cancel _ _ _ M). destruct L6 as [_ E6]. apply sub_of in E6.
    assert (Y4 : y4 = y3) by (apply by_sub; rewrite P, Z; ring).
    assert (X4 : x4 = x3) by (apply by_sub, Z). clear P Y. subst y4.
    assert (a0 : (l + m) * (x3 - x2) + 2 * y2 = 0).
    { apply (cancel (l - m) _ _ N). 
      transitivity ((l * (y1 + y2) - (x1 * x1 + x1 * x2 + x2 * x2 + A)) - (m * (y3 + y2) - (x3 * x3 + x3 * x2 + x2 * x2 + A)) + (x3 - x1) * (x4 - x3)).
      - subst x4 y1 y3. ring.
      - rewrite E2, E4, Z. ring. }
    assert (L0 : l * l - x1 - x2 - x3 = 0) by (rewrite <- X; exact Z). clear X Z. subst x4. subst y1 y3.
    transitivity ((l6 * (y2 + m * (x3 - x2) + (y2 + m * (x3 - x2))) - (x3 * x3 + x3 * x3 + x3 * x3 + A)) - (m * (y2 + m * (x3 - x2) + y2) - (x3 * x3 + x3 * x2 + x2 * x2 + A))
      + (m + (l + k)) * ((l + m) * (x3 - x2) + 2 * y2) - (k * (l - m) - (x3 - x1)) * (x3 - x2) - (x3 - x2) * (l * l - x1 - x2 - x3)); [ring|].
    rewrite E6, E4, a0, K0, L0. ring.
  - apply (cancel _ _ _ Z). destruct L6 as [E6 _]. transitivity (l6 * (x4 - x3) + (l + k) * (x4 - x3)); [ring|]. rewrite <- E6, P. ring.
Qed.
Lemma line_sym x1 y1 x2 y2 l : line x1 y1 x2 y2 l -> line x2 y2 x1 y1 l.
Proof.
  intros [E1 E2]. split.
  - transitivity (- (y1 - y2)); [ring|]. rewrite E1. ring.
  - transitivity (l * (y1 + y2)); [ring|]. rewrite E2. ring.
Qed.
Lemma meets_sym x1 y1 x2 y2 : meets x1 y1 x2 y2 -> meets x2 y2 x1 y1.
Proof.
  intros [N|N].
  - left. intros E. apply N. transitivity (- (x2 - x1)); [ring|]. rewrite E. ring.
  - right. intros E. apply N. transitivity (y2 + y1); [ring|exact E].
Qed.
(** the mirrored third intersection is the same seen from either point *)
Lemma third_sym x1 y1 x2 y2 l : line x1 y1 x2 y2 l -> third_x l x1 x2 = third_x l x2 x1 /\ forall x, third_y l x1 y1 x = third_y l x2 y2 x.
Proof. intros L. apply line_y in L. unfold third_x, third_y. subst y1. split; [|intros x]; ring. Qed.
(** ** associativity, all non-degenerate cases at once: l4 through P1, P2; l5 through P2, P3;
    l6 through P4 = P1+P2 and P3; l7 through P1 and P5 = P2+P3 *)
Lemma assoc_core x1 y1 x2 y2 x3 y3 x4 y4 x5 y5 l4 l5 l6 l7 x6 x7 :
  line x1 y1 x2 y2 l4 -> x4 = third_x l4 x1 x2 -> y4 = third_y l4 x1 y1 x4 ->
  line x2 y2 x3 y3 l5 -> x5 = third_x l5 x2 x3 -> y5 = third_y l5 x2 y2 x5 ->
  line x4 y4 x3 y3 l6 -> meets x4 y4 x3 y3 -> x6 = third_x l6 x4 x3 ->
  line x1 y1 x5 y5 l7 -> meets x1 y1 x5 y5 -> x7 = third_x l7 x1 x5 ->
  x6 = x7 /\ third_y l6 x4 y4 x6 = third_y l7 x1 y1 x7.
Proof.
  intros L4 X4 Y4 L5 X5 Y5 L6 M6 X6 L7 M7 X7. pose proof (line_sym _ _ _ _ _ L5) as L5'. destruct (third_sym _ _ _ _ _ L5) as [T5 T5y].
  pose proof (line_y _ _ _ _ _ L4) as V1. pose proof (line_y _ _ _ _ _ L5') as V3.
  destruct (dec (l4 - l5) 0) as [Z|Z].
  - assert (l4 = l5) as -> by (apply by_sub, Z). clear Z. destruct L4 as [E1 E2], L5' as [E3 E4]. apply sub_of in E1, E2, E3, E4.
    assert (D : (x1 - x3) * (l5 * l5 - x1 - x2 - x3) = 0).
    { transitivity ((l5 * (y1 + y2) - (x1 * x1 + x1 * x2 + x2 * x2 + A)) - (l5 * (y3 + y2) - (x3 * x3 + x3 * x2 + x2 * x2 + A)));
        [rewrite V1, V3; ring|]. rewrite E2, E4. ring. }
    apply int_dom in D. destruct D as [D|D].
    + assert (x3 = x1) as -> by (symmetry; apply by_sub, D). assert (y3 = y1) as -> by (rewrite V1, V3; ring).
      assert (x5 = x4) as -> by (rewrite X4, X5; symmetry; unfold third_x; ring).
      assert (y5 = y4) as -> by (rewrite Y4, Y5; apply T5y).
      assert (l6 = l7) as -> by (apply (line_unique x4 y4 x1 y1); [exact M6|exact L6|apply line_sym, L7]).
      destruct (third_sym _ _ _ _ _ L7) as [T7 T7y]. subst x6 x7. split; [symmetry; exact T7|]. rewrite T7. symmetry. apply T7y.
    + exfalso. assert (Z : x4 - x3 = 0) by (subst x4; exact D). destruct M6 as [N|N]; apply N; [exact Z|].
      transitivity (l5 * (x3 - x4)); [subst y4 y1 y3; unfold third_y; ring|]. transitivity (- l5 * (x4 - x3)); [ring|]. rewrite Z. ring.
  - set (k := (x3 - x1) / (l4 - l5)). assert (K : k * (l4 - l5) = x3 - x1) by (unfold k; field; exact Z). clearbody k.
    assert (Z' : l5 - l4 <> 0) by (intros E; apply Z; transitivity (- (l5 - l4)); [ring|]; rewrite E; ring).
    assert (K' : k * (l5 - l4) = x1 - x3) by (transitivity (- (k * (l4 - l5))); [ring|]; rewrite K; ring).
    pose proof (slope6 _ _ _ _ _ _ _ _ _ _ _ _ L4 L5' Z K X4 Y4 L6 M6) as S6.
    rewrite T5 in X5. rewrite T5y in Y5.
    pose proof (slope6 _ _ _ _ _ _ _ _ _ _ _ _ L5' L4 Z' K' X5 Y5 (line_sym _ _ _ _ _ L7) (meets_sym _ _ _ _ M7)) as S7.
    assert (EX : x6 = x7).
    { apply by_sub. transitivity (2 * (k * (l4 - l5) - (x3 - x1))); [subst x6 x7 x4 x5 l6 l7; unfold third_x; ring|]. rewrite K. ring. }
    split; [exact EX|]. subst x7. rewrite <- EX in *. destruct (third_sym _ _ _ _ _ L6) as [_ T6y]. rewrite T6y. apply by_sub.
    assert (K0 : k * (l4 - l5) - (x3 - x1) = 0) by (rewrite K; ring). unfold third_y.
    transitivity ((k * (l4 - l5) - (x3 - x1)) * (k + (l4 + l4))); [|rewrite K0; ring].
    rewrite X6, S6, S7, V1, V3, X4. unfold third_x. ring.
Qed.
Lemma spec1 x1 y1 x2 y2 x3 y3 x4 y4 x5 y5 l4 l5 l6 l7 x6 x7 :
  curve_eq x1 y1 -> curve_eq x2 y2 -> curve_eq x3 y3 -> x1 - x2 <> 0 -> x2 - x3 <> 0 -> x4 - x3 <> 0 -> x1 - x5 <> 0 ->
  l4 = chord x1 y1 x2 y2 -> x4 = third_x l4 x1 x2 -> y4 = third_y l4 x1 y1 x4 ->
  l5 = chord x2 y2 x3 y3 -> x5 = third_x l5 x2 x3 -> y5 = third_y l5 x2 y2 x5 ->
  l6 = chord x4 y4 x3 y3 -> x6 = third_x l6 x4 x3 ->
  l7 = chord x1 y1 x5 y5 -> x7 = third_x l7 x1 x5 ->
  x6 = x7 /\ third_y l6 x4 y4 x6 = third_y l7 x1 y1 x7.
Proof.
  intros H1 H2 H3 N1 N2 N3 N4 C4 X4 Y4 C5 X5 Y5 C6 X6 C7 X7.
  pose proof (line_chord _ _ _ _ _ H1 H2 N1 C4) as L4. pose proof (line_chord _ _ _ _ _ H2 H3 N2 C5) as L5.
  pose proof (line_third _ _ _ _ _ _ _ H1 L4 X4 Y4) as H4. pose proof (line_third _ _ _ _ _ _ _ H2 L5 X5 Y5) as H5.
  pose proof (line_chord _ _ _ _ _ H4 H3 N3 C6) as L6. pose proof (line_chord _ _ _ _ _ H1 H5 N4 C7) as L7.
  exact (assoc_core _ _ _ _ _ _ _ _ _ _ _ _ _ _ _ _ L4 X4 Y4 L5 X5 Y5 L6 (or_introl N3) X6 L7 (or_introl N4) X7).
Qed.
Lemma twice_nz y : y <> 0 -> y + y <> 0.
Proof. intros N E. apply (nz2 _ _ two N). transitivity (y + y); [ring|exact E]. Qed.
Lemma spec2 x1 y1 x2 y2 x4 y4 x5 y5 l4 l5 l6 l7 x6 x7 :
  curve_eq x1 y1 -> curve_eq x2 y2 -> x1 - x2 <> 0 -> x2 - x4 <> 0 -> y4 <> 0 -> x1 - x5 <> 0 ->
  l4 = chord x1 y1 x2 y2 -> x4 = third_x l4 x1 x2 -> y4 = third_y l4 x1 y1 x4 ->
  l5 = chord x2 y2 x4 y4 -> x5 = third_x l5 x2 x4 -> y5 = third_y l5 x2 y2 x5 ->
  l6 = tangent x4 y4 -> x6 = third_x l6 x4 x4 ->
  l7 = chord x1 y1 x5 y5 -> x7 = third_x l7 x1 x5 ->
  x6 = x7 /\ third_y l6 x4 y4 x6 = third_y l7 x1 y1 x7.
Proof.
  intros H1 H2 N1 N2 N3 N4 C4 X4 Y4 C5 X5 Y5 C6 X6 C7 X7.
  pose proof (line_chord _ _ _ _ _ H1 H2 N1 C4) as L4. pose proof (line_third _ _ _ _ _ _ _ H1 L4 X4 Y4) as H4.
  pose proof (line_chord _ _ _ _ _ H2 H4 N2 C5) as L5. pose proof (line_third _ _ _ _ _ _ _ H2 L5 X5 Y5) as H5.
  pose proof (line_tangent _ _ _ N3 C6) as L6. pose proof (line_chord _ _ _ _ _ H1 H5 N4 C7) as L7.
  exact (assoc_core _ _ _ _ _ _ _ _ _ _ _ _ _ _ _ _ L4 X4 Y4 L5 X5 Y5 L6 (or_intror (twice_nz _ N3)) X6 L7 (or_introl N4) X7).
Qed.
Lemma spec3 x1 y1 x3 y3 x4 y4 x5 y5 l4 l5 l6 l7 x6 x7 :
  curve_eq x1 y1 -> curve_eq x3 y3 -> x1 - x3 <> 0 -> y1 <> 0 -> x4 - x3 <> 0 -> x1 - x5 <> 0 ->
  l4 = tangent x1 y1 -> x4 = third_x l4 x1 x1 -> y4 = third_y l4 x1 y1 x4 ->
  l5 = chord x1 y1 x3 y3 -> x5 = third_x l5 x1 x3 -> y5 = third_y l5 x1 y1 x5 ->
  l6 = chord x4 y4 x3 y3 -> x6 = third_x l6 x4 x3 ->
  l7 = chord x1 y1 x5 y5 -> x7 = third_x l7 x1 x5 ->
  x6 = x7 /\ third_y l6 x4 y4 x6 = third_y l7 x1 y1 x7.
Proof.
  intros H1 H3 N1 N2 N3 N4 C4 X4 Y4 C5 X5 Y5 C6 X6 C7 X7.
  pose proof (line_tangent _ _ _ N2 C4) as L4. pose proof (line_third _ _ _ _ _ _ _ H1 L4 X4 Y4) as H4.
  pose proof (line_chord _ _ _ _ _ H1 H3 N1 C5) as L5. pose proof (line_third _ _ _ _ _ _ _ H1 L5 X5 Y5) as H5.
  pose proof (line_chord _ _ _ _ _ H4 H3 N3 C6) as L6. pose proof (line_chord _ _ _ _ _ H1 H5 N4 C7) as L7.
  exact (assoc_core _ _ _ _ _ _ _ _ _ _ _ _ _ _ _ _ L4 X4 Y4 L5 X5 Y5 L6 (or_introl N3) X6 L7 (or_introl N4) X7).
Qed.
Lemma spec4 x1 y1 x4 y4 x5 y5 l4 l5 l6 l7 x6 x7 :
  curve_eq x1 y1 -> y1 <> 0 -> x1 - x4 <> 0 -> y4 <> 0 -> x1 - x5 <> 0 ->
  l4 = tangent x1 y1 -> x4 = third_x l4 x1 x1 -> y4 = third_y l4 x1 y1 x4 ->
  l5 = chord x1 y1 x4 y4 -> x5 = third_x l5 x1 x4 -> y5 = third_y l5 x1 y1 x5 ->
  l6 = tangent x4 y4 -> x6 = third_x l6 x4 x4 ->
  l7 = chord x1 y1 x5 y5 -> x7 = third_x l7 x1 x5 ->
  x6 = x7 /\ third_y l6 x4 y4 x6 = third_y l7 x1 y1 x7.
Proof.
  intros H1 N1 N2 N3 N4 C4 X4 Y4 C5 X5 Y5 C6 X6 C7 X7.
  pose proof (line_tangent _ _ _ N1 C4) as L4. pose proof (line_third _ _ _ _ _ _ _ H1 L4 X4 Y4) as H4.
  pose proof (line_chord _ _ _ _ _ H1 H4 N2 C5) as L5. pose proof (line_third _ _ _ _ _ _ _ H1 L5 X5 Y5) as H5.
  pose proof (line_tangent _ _ _ N3 C6) as L6. pose proof (line_chord _ _ _ _ _ H1 H5 N4 C7) as L7.
  exact (assoc_core _ _ _ _ _ _ _ _ _ _ _ _ _ _ _ _ L4 X4 Y4 L5 X5 Y5 L6 (or_intror (twice_nz _ N3)) X6 L7 (or_introl N4) X7).
Qed.
End Curve.
