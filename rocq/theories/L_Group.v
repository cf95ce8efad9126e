(** * L_Group: chord-and-tangent addition over a field is a commutative group *)
From Coq Require Import Field Ring Setoid.
From Verif Require Import L_Assoc.
Section Curve.
Variable F : Type.
Variables (f0 f1 : F) (fadd fmul fsub : F -> F -> F) (fopp : F -> F) (fdiv : F -> F -> F) (finv : F -> F).
Hypothesis Fth : field_theory f0 f1 fadd fmul fsub fopp fdiv finv (@eq F).
Hypothesis dec : forall a b : F, {a = b} + {a <> b}.
Add Field FF : Fth.
Local Notation "0" := f0. Local Notation "1" := f1.
Local Infix "+" := fadd. Local Infix "*" := fmul. Local Infix "-" := fsub. Local Infix "/" := fdiv. Local Notation "- x" := (fopp x).
Local Notation "2" := (1 + 1). Local Notation "3" := (1 + 1 + 1).
Variables A B : F.
Hypothesis two : 2 <> 0.
Hypothesis smooth : forall x, 3 * (x * x) + A = 0 -> x * x * x + A * x + B <> 0.
Local Notation curve_eq := (L_Assoc.curve_eq F fadd fmul A B).
Local Notation third_x := (L_Assoc.third_x F fmul fsub).
Local Notation third_y := (L_Assoc.third_y F fmul fsub).
Local Notation chord := (L_Assoc.chord F fsub fdiv).
Local Notation tangent := (L_Assoc.tangent F f1 fadd fmul fdiv A).
Ltac prep := unfold L_Assoc.curve_eq, L_Assoc.third_x, L_Assoc.third_y, L_Assoc.chord, L_Assoc.tangent in *.
Lemma int_dom a b : a * b = 0 -> a = 0 \/ b = 0.
Proof. intros E. destruct (dec a 0) as [|N]; [auto|]. right. transitivity (a * b / a); [field; exact N|]. rewrite E. field. exact N. Qed.
Lemma nz2 a b : a <> 0 -> b <> 0 -> a * b <> 0.
Proof. intros X Y E. apply int_dom in E. tauto. Qed.
Lemma sub_nz a b : a <> b -> a - b <> 0.
Proof. intros N E. apply N. replace a with (a - b + b) by ring. rewrite E. ring. Qed.
Lemma eq_sub a b : a - b = 0 -> a = b.
Proof. intros E. replace a with (a - b + b) by ring. rewrite E. ring. Qed.
Lemma opp_nz a : a <> 0 -> - a <> 0.
Proof. intros N E. apply N. replace a with (- - a) by ring. rewrite E. ring. Qed.
Lemma opp_opp a : - - a = a. Proof. ring. Qed.

Definition pt := option (F * F).
Definition on (P : pt) := match P with None => True | Some (x, y) => curve_eq x y end.
Definition fin (l x1 y1 x2 : F) : pt := Some (third_x l x1 x2, third_y l x1 y1 (third_x l x1 x2)).
Definition padd (P Q : pt) : pt :=
  match P, Q with
  | None, _ => Q
  | _, None => P
  | Some (x1, y1), Some (x2, y2) =>
      if dec x1 x2 then (if dec y1 y2 then if dec y1 0 then None else fin (tangent x1 y1) x1 y1 x1 else None)
      else fin (chord x1 y1 x2 y2) x1 y1 x2
  end.
Definition pneg (P : pt) : pt := match P with None => None | Some (x, y) => Some (x, - y) end.
Infix "[+]" := padd (at level 50, left associativity).

Lemma same_x x y1 y2 : curve_eq x y1 -> curve_eq x y2 -> y1 = y2 \/ y1 = - y2.
Proof.
  prep. intros H1 H2. assert (E : (y1 - y2) * (y1 + y2) = 0) by (ring [H1 H2]). apply int_dom in E. destruct E as [E|E]; [left; apply eq_sub, E|right].
  replace y1 with (y1 + y2 - y2) by ring. rewrite E. ring.
Qed.
Lemma pneg_on P : on P -> on (pneg P).
Proof. destruct P as [[x y]|]; [|tauto]. cbn. prep. intros <-. ring. Qed.
Lemma pneg_pneg P : pneg (pneg P) = P.
Proof. destruct P as [[x y]|]; [|reflexivity]. cbn. rewrite opp_opp. reflexivity. Qed.
Lemma chord_on x1 y1 x2 y2 : curve_eq x1 y1 -> curve_eq x2 y2 -> x1 <> x2 -> on (fin (chord x1 y1 x2 y2) x1 y1 x2).
Proof. intros H1 H2 N. apply sub_nz in N. unfold fin, on. prep. field [H1 H2]. exact N. Qed.
Lemma tangent_on x1 y1 : curve_eq x1 y1 -> y1 <> 0 -> on (fin (tangent x1 y1) x1 y1 x1).
Proof. intros H1 N. unfold fin, on. prep. field [H1]. split; [exact N|exact two]. Qed.
Lemma padd_on P Q : on P -> on Q -> on (P [+] Q).
Proof.
  destruct P as [[x1 y1]|], Q as [[x2 y2]|]; try tauto. unfold padd. intros H1 H2. destruct (dec x1 x2) as [E|N]; [|apply chord_on; assumption].
  destruct (dec y1 y2); [|exact I]. destruct (dec y1 0); [exact I|]. apply tangent_on; assumption.
Qed.
Lemma padd_comm P Q : P [+] Q = Q [+] P.
Proof.
  destruct P as [[x1 y1]|], Q as [[x2 y2]|]; try reflexivity. unfold padd. destruct (dec x1 x2) as [E|N].
  - subst x2. destruct (dec x1 x1) as [_|X]; [|congruence]. destruct (dec y1 y2) as [<-|Ny].
    + destruct (dec y1 y1); [reflexivity|congruence].
    + destruct (dec y2 y1); [congruence|reflexivity].
  - destruct (dec x2 x1) as [|N']; [congruence|]. apply sub_nz in N. apply sub_nz in N'. unfold fin. prep. assert (L : (y2 - y1) / (x2 - x1) = (y1 - y2) / (x1 - x2)) by (field; split; assumption). rewrite L.
    assert (X : (y1 - y2) / (x1 - x2) * ((y1 - y2) / (x1 - x2)) - x2 - x1 = (y1 - y2) / (x1 - x2) * ((y1 - y2) / (x1 - x2)) - x1 - x2) by ring. rewrite X. f_equal. f_equal. field. exact N.
Qed.
Lemma pneg_padd P Q : pneg (P [+] Q) = pneg P [+] pneg Q.
Proof.
  destruct P as [[x1 y1]|], Q as [[x2 y2]|]; try reflexivity. unfold padd, pneg at 2 3. destruct (dec x1 x2) as [<-|N].
  - destruct (dec y1 y2) as [<-|Ny].
    + destruct (dec (- y1) (- y1)) as [_|]; [|congruence]. destruct (dec y1 0) as [->|Ny].
      * destruct (dec (- 0) 0) as [_|X]; [reflexivity|]. exfalso. apply X. ring.
      * destruct (dec (- y1) 0) as [X|_]; [exfalso; exact (opp_nz _ Ny X)|]. unfold fin, pneg. prep. f_equal. f_equal; field; (split; [|split]) || split; try assumption; try apply opp_nz; assumption.
    + destruct (dec (- y1) (- y2)) as [E|_]; [exfalso; apply Ny; rewrite <- (opp_opp y1), E; apply opp_opp|reflexivity].
  - apply sub_nz in N. unfold fin, pneg. prep. f_equal. f_equal; field; exact N.
Qed.
Lemma padd_pneg P : P [+] pneg P = None.
Proof.
  destruct P as [[x y]|]; [|reflexivity]. unfold padd, pneg. destruct (dec x x) as [_|]; [|congruence]. destruct (dec y (- y)) as [E|]; [|reflexivity].
  destruct (dec y 0) as [|N]; [reflexivity|]. exfalso. assert (X : 2 * y = 0) by (replace (2 * y) with (y + y) by ring; rewrite E at 1; ring). apply int_dom in X. tauto.
Qed.
Lemma padd_None P : P [+] None = P.
Proof. destruct P as [[x y]|]; reflexivity. Qed.
Lemma None_padd P : None [+] P = P.
Proof. reflexivity. Qed.
Lemma pair_eq (x y x' y' : F) : x = x' -> y = y' -> Some (x, y) = Some (x', y').
Proof. congruence. Qed.
(** when the chord through P and Q is tangent at Q *)
Lemma double_root x1 y1 x2 y2 : curve_eq x1 y1 -> curve_eq x2 y2 -> x1 <> x2 -> third_x (chord x1 y1 x2 y2) x1 x2 = x2 ->
  2 * y2 * chord x1 y1 x2 y2 = 3 * (x2 * x2) + A.
Proof.
  intros H1 H2 N E. apply sub_nz in N. set (l := chord x1 y1 x2 y2) in *. assert (L : l * (x1 - x2) = y1 - y2) by (unfold l; prep; field; exact N). clearbody l.
  prep. assert (E' : l * l = x1 + x2 + x2) by (rewrite <- E at 2; ring).
  assert (Y : y1 = y2 + l * (x1 - x2)) by (rewrite L; ring). subst y1.
  assert (Z : (x1 - x2) * (2 * y2 * l - (3 * (x2 * x2) + A)) = 0).
  { assert (G : y2 * y2 + 2 * y2 * l * (x1 - x2) + (l * l) * ((x1 - x2) * (x1 - x2)) = x1 * x1 * x1 + A * x1 + B) by (rewrite <- H1; ring).
    rewrite E', H2 in G. match type of G with ?a = ?b => transitivity (a - b) end; [ring|rewrite G; ring]. }
  apply int_dom in Z. destruct Z as [Z|Z]; [tauto|apply eq_sub, Z].
Qed.
Lemma cancel P Q : on P -> on Q -> (P [+] Q) [+] pneg Q = P.
Proof.
  intros HP HQ. destruct Q as [[x2 y2]|]; [|cbn [pneg]; rewrite !padd_None; reflexivity]. destruct P as [[x1 y1]|]; [|rewrite None_padd; apply padd_pneg].
  cbn [on] in HP, HQ. unfold padd at 2. destruct (dec x1 x2) as [<-|N].
  - destruct (dec y1 y2) as [<-|Ny].
    + destruct (dec y1 0) as [->|Ny]; [cbn [pneg]; rewrite None_padd; apply pair_eq; ring|].
      set (l := tangent x1 y1). assert (L : 2 * y1 * l = 3 * (x1 * x1) + A) by (unfold l; prep; field; split; [exact Ny|exact two]).
      unfold fin. cbn [pneg padd]. destruct (dec (third_x l x1 x1) x1) as [E|N].
      * rewrite E. assert (third_y l x1 y1 x1 = - y1) as -> by (prep; ring). destruct (dec (- y1) (- y1)) as [_|]; [|congruence].
        destruct (dec (- y1) 0) as [X|_]; [exfalso; exact (opp_nz _ Ny X)|]. unfold fin. assert (tangent x1 (- y1) = - l) as -> by (unfold l; prep; field; repeat split; (exact two || exact Ny || apply opp_nz, Ny)).
        assert (third_x (- l) x1 x1 = x1) as -> by (rewrite <- E at 3; prep; ring). apply pair_eq; [reflexivity|prep; ring].
      * apply sub_nz in N. unfold fin. set (x3 := third_x l x1 x1) in *. set (y3 := third_y l x1 y1 x3). assert (chord x3 y3 x1 (- y1) = - l) as -> by (unfold y3; prep; field; exact N).
        assert (third_x (- l) x3 x1 = x1) as -> by (unfold x3; prep; ring). apply pair_eq; [reflexivity|unfold y3; prep; ring].
    + destruct (same_x _ _ _ HP HQ) as [X|X]; [tauto|]. rewrite None_padd. cbn [pneg]. rewrite X. reflexivity.
  - pose proof (double_root x1 y1 x2 y2 HP HQ N) as D. pose proof (sub_nz _ _ N) as N'.
    set (l := chord x1 y1 x2 y2) in *. assert (L : y1 - y2 = l * (x1 - x2)) by (unfold l; prep; field; exact N'). assert (Y1 : y1 = y2 + l * (x1 - x2)) by (rewrite <- L; ring). clearbody l.
    unfold fin. cbn [pneg padd]. destruct (dec (third_x l x1 x2) x2) as [E|N3].
    + specialize (D E). rewrite E. assert (third_y l x1 y1 x2 = - y2) as -> by (prep; rewrite <- L; ring). destruct (dec (- y2) (- y2)) as [_|]; [|congruence].
      destruct (dec (- y2) 0) as [Z|Nz].
      * exfalso. assert (Y2 : y2 = 0) by (rewrite <- (opp_opp y2), Z; ring). apply (smooth x2).
        -- rewrite <- D, Y2. ring.
        -- prep. rewrite <- HQ, Y2. ring.
      * assert (Ny : y2 <> 0) by (intros X; apply Nz; rewrite X; ring). unfold fin. assert (tangent x2 (- y2) = - l) as ->.
        { prep. rewrite <- D. field. repeat split; (exact two || exact Ny || exact Nz). }
        assert (third_x (- l) x2 x2 = x1) as -> by (rewrite <- E at 2; prep; ring). apply pair_eq; [reflexivity|prep; rewrite Y1; ring].
    + apply sub_nz in N3. unfold fin. set (x3 := third_x l x1 x2) in *. set (y3 := third_y l x1 y1 x3).
      assert (chord x3 y3 x2 (- y2) = - l) as -> by (unfold y3; prep; rewrite Y1; field; exact N3).
      assert (third_x (- l) x3 x2 = x1) as -> by (unfold x3; prep; ring). apply pair_eq; [reflexivity|unfold y3; prep; ring].
Qed.

(** *** associativity *)
Lemma cancel_r P P' Q : on P -> on P' -> on Q -> P [+] Q = P' [+] Q -> P = P'.
Proof. intros H H' HQ E. rewrite <- (cancel P Q H HQ), E. apply cancel; assumption. Qed.
Lemma cancel_l P Q Q' : on P -> on Q -> on Q' -> P [+] Q = P [+] Q' -> Q = Q'.
Proof. intros HP H H' E. apply (cancel_r _ _ P H H' HP). rewrite (padd_comm Q), (padd_comm Q'). exact E. Qed.
Lemma neg_unique P Q : on P -> on Q -> P [+] Q = None -> P = pneg Q.
Proof. intros HP HQ E. rewrite <- (cancel P Q HP HQ), E. reflexivity. Qed.
Lemma degenerate_l P Q R : on P -> on Q -> on R -> P = None \/ Q = None \/ R = None \/ P [+] Q = None \/ (P [+] Q) [+] R = None ->
  (P [+] Q) [+] R = P [+] (Q [+] R).
Proof.
  intros HP HQ HR [-> |[-> |[-> |[E|E]]]]; [reflexivity|rewrite padd_None; reflexivity|rewrite !padd_None; reflexivity| |].
  - rewrite E, None_padd. rewrite (neg_unique P Q HP HQ E), (padd_comm (pneg Q)), (padd_comm Q R). symmetry. apply cancel; assumption.
  - rewrite E. assert (X : R = pneg (P [+] Q)) by (apply neg_unique; [exact HR|apply padd_on; assumption|rewrite padd_comm; exact E]).
    assert (Y : Q [+] R = pneg P). { rewrite X, pneg_padd, padd_comm. rewrite <- (pneg_pneg Q) at 2. apply cancel; apply pneg_on; assumption. }
    rewrite Y. symmetry. apply padd_pneg.
Qed.
Lemma degenerate P Q R : on P -> on Q -> on R ->
  P = None \/ Q = None \/ R = None \/ P [+] Q = None \/ (P [+] Q) [+] R = None \/ Q [+] R = None \/ P [+] (Q [+] R) = None ->
  (P [+] Q) [+] R = P [+] (Q [+] R).
Proof.
  intros HP HQ HR D. assert (D' : (P = None \/ Q = None \/ R = None \/ P [+] Q = None \/ (P [+] Q) [+] R = None) \/ (R [+] Q = None \/ (R [+] Q) [+] P = None)).
  { rewrite (padd_comm R Q), (padd_comm (Q [+] R) P). tauto. }
  destruct D' as [D'|D']; [apply degenerate_l; assumption|]. rewrite (padd_comm (P [+] Q)), (padd_comm P Q), (padd_comm P), (padd_comm Q R). symmetry. apply degenerate_l; tauto.
Qed.

Definition apart (P Q : pt) : Prop := match P, Q with Some (x1, _), Some (x2, _) => x1 <> x2 | _, _ => False end.
Lemma shape P Q : on P -> on Q -> P [+] Q <> None -> P = None \/ Q = None \/ apart P Q \/ (P = Q /\ exists x y, P = Some (x, y) /\ y <> 0).
Proof.
  intros HP HQ N. destruct P as [[x1 y1]|]; [|auto]. destruct Q as [[x2 y2]|]; [|auto]. right. right. unfold padd in N. cbn [apart]. destruct (dec x1 x2) as [<-|]; [|auto].
  right. destruct (dec y1 y2) as [<-|]; [|congruence]. destruct (dec y1 0); [congruence|]. split; [reflexivity|eauto].
Qed.
Lemma apart_sum x1 y1 x2 y2 : x1 <> x2 -> Some (x1, y1) [+] Some (x2, y2) = fin (chord x1 y1 x2 y2) x1 y1 x2.
Proof. intros N. unfold padd. destruct (dec x1 x2); [congruence|reflexivity]. Qed.
Lemma double_sum x y : y <> 0 -> Some (x, y) [+] Some (x, y) = fin (tangent x y) x y x.
Proof. intros N. unfold padd. destruct (dec x x); [|congruence]. destruct (dec y y); [|congruence]. destruct (dec y 0); [congruence|reflexivity]. Qed.
Ltac points := repeat match goal with P : pt |- _ => destruct P as [[? ?]|] end; try contradiction.
Ltac start := unfold fin; apply pair_eq.

Lemma point1 P Q R : on P -> on Q -> on R -> apart P Q -> apart Q R -> apart (P [+] Q) R -> apart P (Q [+] R) -> (P [+] Q) [+] R = P [+] (Q [+] R).
Proof.
  destruct P as [[x1 y1]|], Q as [[x2 y2]|], R as [[x3 y3]|]; cbn [apart]; try tauto. cbn [on]. intros H1 H2 H3 N1 N2. rewrite (apart_sum _ _ _ _ N1), (apart_sum _ _ _ _ N2). unfold fin. cbn [apart]. intros N3 N4.
  unfold fin. rewrite (apart_sum _ _ _ _ N3), (apart_sum _ _ _ _ N4). unfold fin.
  match goal with |- Some (?x6, third_y ?l6 ?x4 ?y4 ?x6) = Some (?x7, third_y ?l7 ?a ?b ?x7) => assert (S : x6 = x7 /\ third_y l6 x4 y4 x6 = third_y l7 a b x7) end.
  { eapply (L_Assoc.spec1 F f0 f1 fadd fmul fsub fopp fdiv finv Fth dec A B x1 y1 x2 y2 x3 y3); try eassumption; try reflexivity; apply sub_nz; assumption. }
  destruct S as [S1 S2]. apply pair_eq; [exact S1|exact S2].
Qed.
Lemma point2 P Q : on P -> on Q -> apart P Q -> apart Q (P [+] Q) -> (forall x, P [+] Q <> Some (x, 0)) -> apart P (Q [+] (P [+] Q)) ->
  (P [+] Q) [+] (P [+] Q) = P [+] (Q [+] (P [+] Q)).
Proof.
  destruct P as [[x1 y1]|], Q as [[x2 y2]|]; cbn [apart]; try tauto. cbn [on]. intros H1 H2 N1. rewrite (apart_sum _ _ _ _ N1). unfold fin. cbn [apart]. intros N2 Ny.
  assert (Y4 : third_y (chord x1 y1 x2 y2) x1 y1 (third_x (chord x1 y1 x2 y2) x1 x2) <> 0) by (intros Y; apply (Ny (third_x (chord x1 y1 x2 y2) x1 x2)); rewrite Y; reflexivity).
  rewrite (apart_sum _ _ _ _ N2). unfold fin. intros N3. rewrite (double_sum _ _ Y4), (apart_sum _ _ _ _ N3). unfold fin.
  match goal with |- Some (?x6, third_y ?l6 ?x4 ?y4 ?x6) = Some (?x7, third_y ?l7 ?a ?b ?x7) => assert (S : x6 = x7 /\ third_y l6 x4 y4 x6 = third_y l7 a b x7) end.
  { eapply (L_Assoc.spec2 F f0 f1 fadd fmul fsub fopp fdiv finv Fth dec A B two x1 y1 x2 y2); try eassumption; try reflexivity; apply sub_nz; assumption. }
  destruct S as [S1 S2]. apply pair_eq; [exact S1|exact S2].
Qed.
Lemma point3 P R : on P -> on R -> (forall x, P <> Some (x, 0)) -> apart P R -> apart (P [+] P) R -> apart P (P [+] R) -> (P [+] P) [+] R = P [+] (P [+] R).
Proof.
  destruct P as [[x1 y1]|], R as [[x3 y3]|]; cbn [apart]; try tauto. cbn [on]. intros H1 H3 Ny N1. assert (Y : y1 <> 0) by (intros Y; apply (Ny x1); rewrite Y; reflexivity).
  rewrite (double_sum _ _ Y), (apart_sum _ _ _ _ N1). unfold fin. cbn [apart]. intros N3 N4. unfold fin. rewrite (apart_sum _ _ _ _ N3), (apart_sum _ _ _ _ N4). unfold fin.
  match goal with |- Some (?x6, third_y ?l6 ?x4 ?y4 ?x6) = Some (?x7, third_y ?l7 ?a ?b ?x7) => assert (S : x6 = x7 /\ third_y l6 x4 y4 x6 = third_y l7 a b x7) end.
  { eapply (L_Assoc.spec3 F f0 f1 fadd fmul fsub fopp fdiv finv Fth dec A B two x1 y1 x3 y3); try eassumption; try reflexivity; apply sub_nz; assumption. }
  destruct S as [S1 S2]. apply pair_eq; [exact S1|exact S2].
Qed.
Lemma point4 P : on P -> (forall x, P <> Some (x, 0)) -> (forall x, P [+] P <> Some (x, 0)) -> apart P (P [+] P) -> apart P (P [+] (P [+] P)) ->
  (P [+] P) [+] (P [+] P) = P [+] (P [+] (P [+] P)).
Proof.
  destruct P as [[x1 y1]|]; cbn [apart]; try tauto. cbn [on]. intros H1 Ny Ny4. assert (Y : y1 <> 0) by (intros Y; apply (Ny x1); rewrite Y; reflexivity).
  rewrite (double_sum _ _ Y) in *. assert (Y4 : third_y (tangent x1 y1) x1 y1 (third_x (tangent x1 y1) x1 x1) <> 0) by (intros E; apply (Ny4 (third_x (tangent x1 y1) x1 x1)); unfold fin; rewrite E; reflexivity).
  unfold fin. cbn [apart]. intros N2. rewrite (apart_sum _ _ _ _ N2). unfold fin. intros N3. rewrite (double_sum _ _ Y4), (apart_sum _ _ _ _ N3). unfold fin.
  match goal with |- Some (?x6, third_y ?l6 ?x4 ?y4 ?x6) = Some (?x7, third_y ?l7 ?a ?b ?x7) => assert (S : x6 = x7 /\ third_y l6 x4 y4 x6 = third_y l7 a b x7) end.
  { eapply (L_Assoc.spec4 F f0 f1 fadd fmul fsub fopp fdiv finv Fth dec A B two x1 y1); try eassumption; try reflexivity; apply sub_nz; assumption. }
  destruct S as [S1 S2]. apply pair_eq; [exact S1|exact S2].
Qed.
Lemma None_dec (P : pt) : {P = None} + {P <> None}.
Proof. destruct P; [right; discriminate|left; reflexivity]. Qed.
Lemma order2 x : Some (x, 0) [+] Some (x, 0) = None.
Proof. unfold padd. destruct (dec x x); [|congruence]. destruct (dec 0 0); [|congruence]. destruct (dec 0 0); [reflexivity|congruence]. Qed.
Lemma double_assoc P R : on P -> on R -> (P [+] P) [+] R = P [+] (P [+] R).
Proof.
  intros HP HR. pose proof (padd_on P P HP HP) as H2. pose proof (padd_on P R HP HR) as H5.
  destruct (None_dec P); [apply degenerate; auto|]. destruct (None_dec R); [apply degenerate; auto|]. destruct (None_dec (P [+] P)); [apply degenerate; auto|].
  destruct (None_dec ((P [+] P) [+] R)); [apply degenerate; auto 10|]. destruct (None_dec (P [+] R)); [apply degenerate; auto 10|]. destruct (None_dec (P [+] (P [+] R))); [apply degenerate; auto 10|].
  assert (Ny : forall x, P <> Some (x, 0)) by (intros x ->; rewrite order2 in *; congruence).
  destruct (shape P R HP HR) as [|[|[G1|[<- _]]]]; try tauto; [|apply padd_comm].
  destruct (shape P (P [+] R) HP H5) as [|[|[G4|[X _]]]]; try tauto.
  2:{ exfalso. apply n0. apply (cancel_l P R None HP HR I). rewrite padd_None. symmetry. exact X. }
  destruct (shape (P [+] P) R H2 HR) as [|[|[G3|[X (x & y & E & Y)]]]]; try tauto.
  - apply point3; assumption.
  - subst R. apply point4; try assumption. intros x' Ex. rewrite Ex in *. apply Y. congruence.
Qed.
Lemma sum_double P Q : on P -> on Q -> (P [+] Q) [+] (P [+] Q) = P [+] (Q [+] (P [+] Q)).
Proof.
  intros HP HQ. set (R := P [+] Q). assert (HR : on R) by (apply padd_on; assumption). pose proof (padd_on Q R HQ HR) as H5.
  assert (Deg : forall P' Q', on P' -> on Q' -> P' = None \/ Q' = None \/ P' [+] Q' = None \/ (P' [+] Q') [+] (P' [+] Q') = None \/ Q' [+] (P' [+] Q') = None \/ P' [+] (Q' [+] (P' [+] Q')) = None ->
    (P' [+] Q') [+] (P' [+] Q') = P' [+] (Q' [+] (P' [+] Q'))).
  { intros P' Q' h1 h2 D. apply (degenerate P' Q' (P' [+] Q')); [exact h1|exact h2|apply padd_on; assumption|tauto]. }
  destruct (None_dec P) as [|NP]; [apply Deg; auto|]. destruct (None_dec Q) as [|NQ]; [apply Deg; auto|]. destruct (None_dec R) as [|NR]; [apply Deg; auto|].
  destruct (None_dec (R [+] R)) as [|NRR]; [apply Deg; auto 10|]. destruct (None_dec (Q [+] R)) as [|NQR]; [apply Deg; auto 10|]. destruct (None_dec (P [+] (Q [+] R))) as [|N7]; [apply Deg; auto 10|].
  assert (Ny : forall x, R <> Some (x, 0)) by (intros x Ex; rewrite Ex, order2 in NRR; congruence).
  destruct (shape P Q HP HQ NR) as [|[|[G1|[<- _]]]]; try tauto.
  2:{ unfold R. apply double_assoc; [exact HP|apply padd_on; assumption]. }
  assert (NotQ : Q <> R). { intros X. apply NP. apply (cancel_r P None Q HP I HQ). rewrite None_padd. symmetry. exact X. }
  assert (NotP : P <> R). { intros X. apply NQ. apply (cancel_l P Q None HP HQ I). rewrite padd_None. symmetry. exact X. }
  destruct (shape Q R HQ HR NQR) as [|[|[G2|[X _]]]]; try tauto.
  destruct (shape P (Q [+] R) HP H5 N7) as [|[|[G4|[X _]]]]; try tauto; [apply point2; assumption|].
  (* P = Q + R *)
  rewrite <- X. assert (RQ : R = P [+] pneg Q). { rewrite X, (padd_comm Q R). symmetry. apply cancel; assumption. }
  assert (Q2 : Q = pneg Q). { apply (cancel_l P Q (pneg Q) HP HQ (pneg_on _ HQ)). exact RQ. }
  assert (NPP : P [+] P <> None) by (rewrite X at 2; exact N7).
  assert (PR : P [+] R = (P [+] P) [+] Q) by (symmetry; apply double_assoc; assumption).
  assert (Fin : Q [+] (P [+] R) = P [+] P) by (rewrite PR, padd_comm; rewrite Q2 at 2; apply cancel; [apply padd_on; assumption|exact HQ]).
  rewrite <- Fin. assert (QP : Q [+] P = R) by apply padd_comm. rewrite <- QP.
  destruct (None_dec (P [+] R)) as [|NPR]; [apply Deg; rewrite ?QP; auto 10|].
  destruct (None_dec (Q [+] (P [+] R))) as [|N7']; [apply Deg; rewrite ?QP; auto 10|].
  destruct (shape P R HP HR NPR) as [|[|[G2'|[Y _]]]]; try tauto.
  destruct (shape Q (P [+] R) HQ (padd_on _ _ HP HR) N7') as [|[|[G4'|[Y (x & y & E & Yn)]]]]; try tauto.
  - apply point2; rewrite ?QP; try assumption. destruct P as [[]|], Q as [[]|]; cbn [apart] in *; congruence.
  - exfalso. apply Yn. rewrite E in Q2. cbn [pneg] in Q2. assert (Z : y = - y) by congruence.
    assert (Z2 : 2 * y = 0) by (replace (2 * y) with (y + y) by ring; rewrite Z at 1; ring). apply int_dom in Z2. tauto.
Qed.
Theorem padd_assoc P Q R : on P -> on Q -> on R -> (P [+] Q) [+] R = P [+] (Q [+] R).
Proof.
  intros HP HQ HR. pose proof (padd_on P Q HP HQ) as H4. pose proof (padd_on Q R HQ HR) as H5.
  destruct (None_dec P); [apply degenerate; auto|]. destruct (None_dec Q); [apply degenerate; auto|]. destruct (None_dec R); [apply degenerate; auto|].
  destruct (None_dec (P [+] Q)); [apply degenerate; auto|]. destruct (None_dec (Q [+] R)); [apply degenerate; auto 10|].
  destruct (None_dec ((P [+] Q) [+] R)); [apply degenerate; auto 10|]. destruct (None_dec (P [+] (Q [+] R))); [apply degenerate; auto 10|].
  destruct (shape P Q HP HQ) as [|[|[G1|[<- _]]]]; try tauto; [|apply double_assoc; assumption].
  destruct (shape Q R HQ HR) as [|[|[G2|[<- _]]]]; try tauto.
  2:{ rewrite (padd_comm (P [+] Q)), (padd_comm P Q), (padd_comm P). symmetry. apply double_assoc; assumption. }
  destruct (shape (P [+] Q) R H4 HR) as [|[|[G3|[<- _]]]]; try tauto; [|apply sum_double; assumption].
  destruct (shape P (Q [+] R) HP H5) as [|[|[G4|[E _]]]]; try tauto; [apply point1; assumption|].
  (* P = Q + R *)
  subst P. rewrite (padd_comm (Q [+] R) Q), (padd_comm (Q [+] (Q [+] R))), (padd_comm Q R). symmetry. apply (sum_double R Q); assumption.
Qed.
End Curve.
