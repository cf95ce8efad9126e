(** * P_Fixed8Ops: property C103 (Fixed8 next to other objects) *)
From Coq Require Import Lia Permutation.
From Verif Require Import M_Py M_Fixed8 M_Float M_Fixed8Heap M_Fixed8Ops L_Float L_Fixed8.

(** ** C103 Fixed8 operators look at other.value only *)

(** Between two amounts the six comparisons are those of the integers. *)
Theorem C103_compare : forall a b,
  (op_cmp CEq a (OFixed8 b) = Ok true <-> a = b) /\ (op_cmp CNe a (OFixed8 b) = Ok true <-> a <> b) /\
  (op_cmp CLt a (OFixed8 b) = Ok true <-> a < b) /\ (op_cmp CGt a (OFixed8 b) = Ok true <-> a > b) /\
  (op_cmp CLe a (OFixed8 b) = Ok true <-> a <= b) /\ (op_cmp CGe a (OFixed8 b) = Ok true <-> a >= b) /\
  (forall c, op_cmp c a (OFixed8 b) = Ok true \/ op_cmp c a (OFixed8 b) = Ok false).
Proof.
  intros a b. unfold op_cmp, attr_value, rbind, cmp_fn, f8_eq, f8_lt, f8_gt, f8_le, f8_ge.
  assert (H : forall x : bool, Ok x = Ok true <-> x = true) by (intros x; split; congruence).
  rewrite !H, Bool.negb_true_iff, Z.eqb_eq, Z.eqb_neq, Z.ltb_lt, Z.gtb_lt, Z.leb_le, Z.geb_le.
  do 6 (split; [lia|]). intros c. destruct c; cbn [cmp_fn];
  match goal with |- Ok ?x = _ \/ _ => destruct x; auto end.
Qed.
Print Assumptions C103_compare.

(** Between two amounts the other operators are those of the integers, in the order they are written. *)
Theorem C103_between_amounts : forall a b,
  op_bin BAdd a (OFixed8 b) = Ok (a + b) /\ op_bin BSub a (OFixed8 b) = Ok (a - b) /\ op_bin BMul a (OFixed8 b) = Ok (a * b) /\
  (b <> 0 -> op_bin BMod a (OFixed8 b) = Ok (a mod b) /\ op_bin BFloorDiv a (OFixed8 b) = Ok (a / b)) /\
  (Z.abs a <= 2 ^ 53 -> b <> 0 -> op_bin BTrueDiv a (OFixed8 b) = Ok (Z.quot a b)) /\
  (b = 0 -> op_bin BMod a (OFixed8 b) = Raise ZeroDivisionError /\ op_bin BFloorDiv a (OFixed8 b) = Raise ZeroDivisionError /\
     op_bin BTrueDiv a (OFixed8 b) = Raise ZeroDivisionError) /\
  op_inp IAdd a (OFixed8 b) = Ok (a + b) /\ op_inp ISub a (OFixed8 b) = Ok (a - b) /\ op_inp IMul a (OFixed8 b) = Ok (a * b) /\
  op_inp IMod a (OFixed8 b) = op_bin BMod a (OFixed8 b) /\ op_inp ITrueDiv a (OFixed8 b) = op_bin BTrueDiv a (OFixed8 b) /\
  (0 <= b -> op_pow a (OFixed8 b) = Ok (a ^ b)).
Proof.
  intros a b. do 3 (split; [reflexivity|]). split; [|split; [|split]].
  - intros N. apply Z.eqb_neq in N. split; cbn; [unfold f8_mod|unfold f8_floordiv]; rewrite N; reflexivity.
  - intros A N. cbn [op_bin attr_value rbind bin_fn]. apply truediv_exact; assumption.
  - intros ->. split; [reflexivity|]. split; [reflexivity|]. cbn [op_bin attr_value rbind bin_fn]. unfold f8_truediv. rewrite int_truediv_zero. reflexivity.
  - repeat split.
Qed.
Print Assumptions C103_between_amounts.

(** With an object that has no attribute called value every operator and every comparison raises
    AttributeError when the Fixed8 is on the left, == and != included; on the right arithmetic
    raises TypeError and comparisons AttributeError. *)
Theorem C103_foreign_raises : forall f,
  (forall o, op_bin o f OBuiltin = Raise AttributeError) /\ (forall o, op_inp o f OBuiltin = Raise AttributeError) /\
  op_pow f OBuiltin = Raise AttributeError /\ (forall c, op_cmp c f OBuiltin = Raise AttributeError) /\
  (forall o, rop_bin o OBuiltin f = Raise TypeError) /\ (forall c, rop_cmp c OBuiltin f = Raise AttributeError).
Proof. intros f. repeat split. Qed.
Print Assumptions C103_foreign_raises.

(** An object of an unrelated class is taken for an amount if it has an attribute called value. *)
Theorem C103_unrelated_accepted : forall f v,
  (forall o, op_bin o f (OValued v) = op_bin o f (OFixed8 v)) /\ (forall o, op_inp o f (OValued v) = op_inp o f (OFixed8 v)) /\
  op_pow f (OValued v) = op_pow f (OFixed8 v) /\ (forall c, op_cmp c f (OValued v) = op_cmp c f (OFixed8 v)) /\
  (forall o, rop_bin o (OValued v) f = Raise TypeError) /\
  (forall c, rop_cmp c (OValued v) f = rop_cmp c (OFixed8 v) f).
Proof.
  intros f v. repeat split. intros c. unfold rop_cmp, op_cmp, attr_value, rbind. f_equal.
  destruct c; cbn [mirror cmp_fn]; unfold f8_eq, f8_lt, f8_gt, f8_le, f8_ge.
  - apply Z.eqb_sym.
  - f_equal. apply Z.eqb_sym.
  - rewrite Z.gtb_ltb. reflexivity.
  - rewrite Z.gtb_ltb. reflexivity.
  - rewrite Z.geb_leb. reflexivity.
  - rewrite Z.geb_leb. reflexivity.
Qed.
Print Assumptions C103_unrelated_accepted.

(** Every amount is truthy, zero included, and no amount can be hashed. *)
Theorem C103_truth_and_hash : forall f, f8_truth f = true /\ f8_hash f = Raise TypeError.
Proof. split; reflexivity. Qed.
Print Assumptions C103_truth_and_hash.

(** `f in l` finds an equal amount, unless an object without value comes before it. *)
Theorem C103_in_amounts : forall f l, f8_in f (map OFixed8 l) = Ok (if in_dec Z.eq_dec f l then true else false).
Proof.
  intros f l. induction l as [|x l IH]; [reflexivity|]. cbn [map f8_in]. unfold op_cmp, attr_value, rbind, cmp_fn, f8_eq.
  destruct (Z.eqb_spec f x) as [->|Hn].
  - destruct (in_dec Z.eq_dec x (x :: l)) as [_|H]; [reflexivity|]. exfalso. apply H. left. reflexivity.
  - rewrite IH. destruct (in_dec Z.eq_dec f l) as [H|H], (in_dec Z.eq_dec f (x :: l)) as [H'|H']; try reflexivity.
    + exfalso. apply H'. right. exact H.
    + exfalso. destruct H' as [H'|H']; [congruence|contradiction].
Qed.
Print Assumptions C103_in_amounts.
Theorem C103_in_foreign : forall f l r,
  f8_in f (map OFixed8 l ++ OBuiltin :: r) = if in_dec Z.eq_dec f l then Ok true else Raise AttributeError.
Proof.
  intros f l r. induction l as [|x l IH]; [reflexivity|]. cbn [map app f8_in]. unfold op_cmp, attr_value, rbind, cmp_fn, f8_eq.
  destruct (Z.eqb_spec f x) as [->|Hn].
  - destruct (in_dec Z.eq_dec x (x :: l)) as [_|H]; [reflexivity|]. exfalso. apply H. left. reflexivity.
  - rewrite IH. destruct (in_dec Z.eq_dec f l) as [H|H], (in_dec Z.eq_dec f (x :: l)) as [H'|H']; try reflexivity.
    + exfalso. apply H'. right. exact H.
    + exfalso. destruct H' as [H'|H']; [congruence|contradiction].
Qed.
Print Assumptions C103_in_foreign.

(** sum(l, Fixed8.Zero()) is the exact sum in any order; sum(l) works for the empty list only. *)
Theorem C103_sum : forall l start, f8_sum start (map OFixed8 l) = Ok (start + fold_right Z.add 0 l).
Proof.
  intros l. unfold f8_sum. induction l as [|x l IH]; intros start; [cbn; f_equal; lia|].
  cbn [map f8_sum_from]. unfold op_bin, attr_value, rbind, bin_fn, f8_add. rewrite IH. cbn [fold_right]. f_equal. lia.
Qed.
Print Assumptions C103_sum.
Theorem C103_sum_any_order : forall l m start, Permutation l m -> f8_sum start (map OFixed8 l) = f8_sum start (map OFixed8 m).
Proof.
  intros l m start H. rewrite !C103_sum. do 2 f_equal. induction H; cbn [fold_right]; lia.
Qed.
Print Assumptions C103_sum_any_order.
Theorem C103_sum_default : forall l, f8_sum_default l = match l with [] => Ok None | _ => Raise TypeError end.
Proof. destruct l; reflexivity. Qed.
Print Assumptions C103_sum_default.

Example C103_example :
  op_cmp CEq 5 OBuiltin = Raise AttributeError /\ op_bin BAdd 5 (OValued 7) = Ok 12 /\ rop_cmp CLt (OValued 4) 5 = Ok true /\
  f8_in 5 [OFixed8 4; OFixed8 5; OBuiltin] = Ok true /\ f8_in 5 [OFixed8 4; OBuiltin; OFixed8 5] = Raise AttributeError /\
  f8_sum Zero (map OFixed8 [1; 2; 3]) = Ok 6 /\ f8_sum_default [1; 2; 3] = Raise TypeError /\ f8_truth Zero = true.
Proof. repeat split. Qed.
Print Assumptions C103_example.
