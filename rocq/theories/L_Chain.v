(** * L_Chain: point additions checked against given slopes *)
From Coq Require Import ZArith Znumtheory Lia Bool List.
From Verif Require Import M_ECCurve L_Field S_EC S_Group L_EC L_Mult.
Import ListNotations.
Open Scope Z_scope.

(** [red x] is congruent to x; that it lies in 0..p-1 is checked where it matters *)
Section Red.
Variable c : curve.
Variable red : Z -> Z.
Hypothesis Hred : forall x, same (c_p c) (red x) x.
Definition congb (a b : Z) : bool := red (a - b) =? 0.
Lemma congb_same a b : congb a b = true -> same (c_p c) a b.
Proof.
  unfold congb. rewrite Z.eqb_eq. intros H. specialize (Hred (a - b)). rewrite H in Hred. unfold same in *. destruct Hred as [k K]. exists (- k). lia.
Qed.
Definition in_range (v : Z) : bool := (0 <=? v) && (v <? c_p c).
Definition finish (l x1 y1 x2 : Z) : option (Z * Z) :=
  let x3 := red (l * l - x1 - x2) in let y3 := red (l * (x1 - x3) - y1) in
  if in_range x3 && in_range y3 then Some (x3, y3) else None.
(** P + Q when neither is infinity; [l] is the slope *)
Definition check_add (l : Z) (P Q : Z * Z) : option (Z * Z) :=
  let '(x1, y1) := P in let '(x2, y2) := Q in
  if iszero P || iszero Q then None
  else if x1 =? x2 then
    if y1 + y2 =? c_p c then Some (0, 0)
    else if (y1 =? y2) && negb (y1 =? 0) && congb (l * (2 * y1)) (3 * (x1 * x1) + c_a c) then finish l x1 y1 x1 else None
  else if congb (l * (x1 - x2)) (y1 - y2) then finish l x1 y1 x2 else None.
Lemma check_add_ok l P Q R : elliptic c -> point_of c P -> point_of c Q -> check_add l P Q = Some R -> ec_add c P Q = R.
Proof.
  intros (Hp & H2 & _) HP HQ H. assert (P0 : 0 < c_p c) by lia. symmetry. apply (sum_fun (c_p c) (c_a c) P Q); try assumption; [apply HP|apply HQ| |apply ec_add_sum; assumption].
  destruct P as [x1 y1], Q as [x2 y2]. destruct HP as [[CX1 CY1] _], HQ as [[CX2 CY2] _]. cbn [fst snd] in *. unfold check_add in H.
  destruct (iszero (x1, y1)) eqn:Z1; [discriminate|]. destruct (iszero (x2, y2)) eqn:Z2; [discriminate|]. cbn [orb] in H. apply iszero_false in Z1, Z2.
  assert (F : forall l x x3 y3, finish l x1 y1 x = Some (x3, y3) -> canonical (c_p c) (x3, y3) /\ same (c_p c) x3 (l * l - x1 - x) /\ same (c_p c) y3 (l * (x1 - x3) - y1)).
  { intros l' x x3 y3 F. unfold finish in F. destruct (in_range _ && in_range _) eqn:I; [|discriminate]. apply andb_prop in I. destruct I as [I1 I2]. unfold in_range in I1, I2.
    assert (E1 : x3 = red (l' * l' - x1 - x)) by congruence. rewrite <- E1 in *. assert (E2 : y3 = red (l' * (x1 - x3) - y1)) by congruence. rewrite <- E2 in *.
    split; [split; cbn [fst snd]; lia|]. split; [rewrite E1|rewrite E2]; apply Hred. }
  destruct R as [x3 y3]. destruct (Z.eqb_spec x1 x2) as [<-|N].
  - destruct (Z.eqb_spec (y1 + y2) (c_p c)) as [C|C].
    + assert (x3 = 0 /\ y3 = 0) as [-> ->] by (split; congruence). apply sum_opposite; try assumption; [apply same_cong, cong_refl|]. exists 1. lia.
    + destruct (Z.eqb_spec y1 y2) as [<-|]; [|discriminate]. destruct (Z.eqb_spec y1 0) as [|Y]; [discriminate|]. cbn [andb negb] in H. destruct (congb _ _) eqn:L in H; [|discriminate].
      destruct (F _ _ _ _ H) as (F1 & F2 & F3).
      apply sum_tangent with (l := l); try assumption; try (apply same_cong, cong_refl); [|apply congb_same; assumption].
      intros D. unfold same in D. rewrite Z.sub_0_r in D. apply Z.divide_pos_le in D; lia.
  - destruct (congb _ _) eqn:L in H; [|discriminate]. destruct (F _ _ _ _ H) as (F1 & F2 & F3).
    apply sum_chord with (l := l); try assumption; [|apply congb_same; assumption].
    intros D. apply N. apply (cong_small (c_p c)); try assumption.
Qed.
(** double-and-add from the highest digit: [true] adds P, [false] doubles *)
Fixpoint chain (P : Z * Z) (ops : list (bool * Z)) (acc : Z * Z) : option (Z * Z) :=
  match ops with
  | [] => Some acc
  | (add, l) :: r => match check_add l acc (if add then P else acc) with Some a => chain P r a | None => None end
  end.
Fixpoint chain_number (ops : list (bool * Z)) (k : Z) : Z :=
  match ops with [] => k | (add, _) :: r => chain_number r (if add then k + 1 else 2 * k) end.
Lemma chain_ok P ops : elliptic c -> point_of c P -> forall k R, 0 <= k -> chain P ops (multiple (ec_add c) k P) = Some R -> R = multiple (ec_add c) (chain_number ops k) P.
Proof.
  intros E HP. induction ops as [|[add l] r IH]; intros k R K H; cbn [chain chain_number] in *; [congruence|]. pose proof (times_pt c E k P HP) as HK.
  destruct (check_add l _ _) as [a|] eqn:C; [|discriminate]. apply check_add_ok in C; [|exact E|exact HK|destruct add; assumption]. apply IH; [destruct add; lia|].
  assert (a = multiple (ec_add c) (if add then k + 1 else 2 * k) P) as <-; [|exact H]. rewrite <- C. destruct add.
  - rewrite (times_add c E) by (assumption || lia). rewrite (times_1 c). reflexivity.
  - replace (2 * k) with (k + k) by lia. symmetry. apply (times_add c E); assumption.
Qed.
End Red.
