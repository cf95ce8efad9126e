(** * P_Fixed8: properties C39-C44 *)
From Coq Require Import String Reals Lia ZifyBool ZifyNat.
From Flocq Require Import Core BinarySingleNaN.
From Coq Require Import Floats.SpecFloat.
From Verif Require Import M_Py M_Float M_Fixed8 M_Fixed8Heap S_Float S_Fixed8 L_Float L_Fixed8 L_Fixed8b L_Bytes.
Open Scope Z_scope.

(** ** C39 Fixed8 addition, subtraction, negation and ordering are exact *)
Theorem C39_exact : forall a b, f8_add a b = Ok (a + b) /\ f8_sub a b = Ok (a - b) /\ f8_neg a = Ok (- a) /\
  f8_iadd a b = f8_add a b /\ f8_isub a b = f8_sub a b /\
  (f8_eq a b = true <-> a = b) /\ (f8_lt a b = true <-> a < b) /\ (f8_gt a b = true <-> b < a) /\
  (f8_le a b = true <-> a <= b) /\ (f8_ge a b = true <-> b <= a).
Proof.
  intros a b. unfold f8_neg, f8_eq, f8_lt, f8_gt, f8_le, f8_ge. repeat split; try lia; try reflexivity; f_equal; lia.
Qed.
Print Assumptions C39_exact.
Theorem C39_constants : Zero = 0 /\ Satoshi = 1 /\ f8_add Satoshi NegativeSatoshi = Ok Zero /\
  One = 10 ^ 8 /\ FD = One /\ ToInt One = Ok 1 /\ ToInt FD = Ok 1.
Proof. repeat split; vm_compute; reflexivity. Qed.
Print Assumptions C39_constants.
(** the group and order laws, through the API: results feed the next operation *)
Theorem C39_group_laws : forall a b c,
  f8_add a b = f8_add b a /\
  (do x <- f8_add a b; f8_add x c) = (do y <- f8_add b c; f8_add a y) /\
  f8_add a Zero = Ok a /\
  (do x <- f8_neg a; f8_add a x) = Ok Zero /\
  f8_sub a b = (do x <- f8_neg b; f8_add a x) /\
  (do x <- f8_add a c; do y <- f8_add b c; Ok (f8_lt x y)) = Ok (f8_lt a b).
Proof.
  intros a b c. unfold f8_add, f8_neg, f8_sub, f8_lt, Zero. cbn [rbind]. repeat split; f_equal; lia.
Qed.
Print Assumptions C39_group_laws.
(** whatever a program does, an existing Fixed8 object keeps its value: only the variable an
    in-place operator is applied to is bound to another object *)
Theorem C39_objects_never_change : forall l w, exists more, f8_objs (run_f8 l w) = f8_objs w ++ more.
Proof.
  induction l as [|s l IH]; intros w; [exists []; cbn; rewrite app_nil_r; reflexivity|].
  cbn [run_f8 fold_left]. destruct (IH (f8step w s)) as [more Hm]. unfold run_f8 in Hm. rewrite Hm.
  assert (S1 : exists m, f8_objs (f8step w s) = f8_objs w ++ m).
  { assert (N : exists m, f8_objs w = f8_objs w ++ m) by (exists []; rewrite app_nil_r; reflexivity).
    destruct s; cbn [f8step].
    - eexists. reflexivity.
    - destruct (nth_error _ _); exact N.
    - destruct (value_in w i); [|exact N]. destruct (un_fn o z); [eexists; reflexivity|exact N].
    - destruct (value_in w i), (value_in w j); try exact N. destruct (bin_fn o z z0); [eexists; reflexivity|exact N].
    - destruct (value_in w i), (value_in w j); try exact N. destruct (inp_fn o z z0); [eexists; reflexivity|exact N]. }
  destruct S1 as [m ->]. exists (m ++ more). rewrite app_assoc. reflexivity.
Qed.
Print Assumptions C39_objects_never_change.
(** x op= y leaves every other variable, also an alias of x or y, with its value *)
Theorem C39_inplace_other_variables : forall o i j w v z, v <> i ->
  value_in w v = Some z -> value_in (f8step w (SInplace o i j)) v = Some z.
Proof.
  intros o i j w v z Hv Hz. cbn [f8step]. destruct (value_in w i) as [a|]; [|exact Hz]. destruct (value_in w j) as [b|]; [|exact Hz].
  destruct (inp_fn o a b) as [r|]; [|exact Hz]. unfold value_in in *. cbn [f8_objs f8_vars].
  assert (E : forall l k (x : nat), v <> k -> nth_error (set_nth l k x) v = nth_error l v).
  { clear. revert v. intros v l. revert v. induction l as [|y l IH]; intros [|v] [|k] x H; cbn; try reflexivity; try lia. apply IH. lia. }
  rewrite E by exact Hv. destruct (nth_error (f8_vars w) v) as [ob|]; [|discriminate]. rewrite nth_error_app1; [exact Hz|]. apply nth_error_Some. congruence.
Qed.
Print Assumptions C39_inplace_other_variables.
(** x op= y gives x the value x op y has, or raises when x op y does and then changes nothing *)
Theorem C39_inplace_result : forall o i j w a b, value_in w i = Some a -> value_in w j = Some b ->
  let w' := f8step w (SInplace o i j) in
  match (match o with IAdd => f8_add a b | ISub => f8_sub a b | IMul => f8_mul a b | ITrueDiv => f8_truediv a b | IMod => f8_mod a b end) with
  | Ok z => value_in w' i = Some z
  | Raise _ => w' = w
  end.
Proof.
  intros o i j w a b Ha Hb w'. unfold w'. cbn [f8step]. rewrite Ha, Hb.
  assert (E : forall l k (x : nat), (k < length l)%nat -> nth_error (set_nth l k x) k = Some x).
  { clear. induction l as [|y l IH]; intros [|k] x H; cbn in *; try lia; [reflexivity|]. apply IH. lia. }
  assert (Hi : (i < length (f8_vars w))%nat).
  { apply nth_error_Some. unfold value_in in Ha. destruct (nth_error (f8_vars w) i); congruence. }
  assert (K : match o with IAdd => f8_add a b | ISub => f8_sub a b | IMul => f8_mul a b | ITrueDiv => f8_truediv a b | IMod => f8_mod a b end
     = inp_fn o a b) by (destruct o; reflexivity).
  rewrite K. destruct (inp_fn o a b) as [z|e]; [|reflexivity].
  unfold value_in. cbn [f8_objs f8_vars]. rewrite E by exact Hi. rewrite nth_error_app2, Nat.sub_diag by lia. reflexivity.
Qed.
Print Assumptions C39_inplace_result.
(** z = x op y: a new variable with that value; every existing variable keeps its value *)
Theorem C39_binary_result : forall o i j w a b, value_in w i = Some a -> value_in w j = Some b ->
  let w' := f8step w (SBin o i j) in
  match (match o with BAdd => f8_add a b | BSub => f8_sub a b | BMul => f8_mul a b | BTrueDiv => f8_truediv a b
         | BFloorDiv => f8_floordiv a b | BMod => f8_mod a b end) with
  | Ok z => length (f8_vars w') = S (length (f8_vars w)) /\ value_in w' (length (f8_vars w)) = Some z
  | Raise _ => w' = w
  end /\ (forall v x, value_in w v = Some x -> value_in w' v = Some x).
Proof.
  intros o i j w a b Ha Hb w'. unfold w'. cbn [f8step]. rewrite Ha, Hb.
  assert (P : forall z, length (f8_vars w ++ [length (f8_objs w)]) = S (length (f8_vars w)) /\
     value_in (mkF8 (f8_objs w ++ [z]) (f8_vars w ++ [length (f8_objs w)])) (length (f8_vars w)) = Some z).
  { intros z. split; [rewrite app_length; cbn; lia|]. unfold value_in. cbn [f8_objs f8_vars].
    rewrite nth_error_app2, Nat.sub_diag by lia. cbn [nth_error]. rewrite nth_error_app2, Nat.sub_diag by lia. reflexivity. }
  assert (Q : forall z v x, value_in w v = Some x -> value_in (mkF8 (f8_objs w ++ [z]) (f8_vars w ++ [length (f8_objs w)])) v = Some x).
  { intros z v x. unfold value_in. cbn [f8_objs f8_vars]. destruct (nth_error (f8_vars w) v) as [ob|] eqn:V; [|discriminate].
    intros Hx. rewrite nth_error_app1 by (apply nth_error_Some; congruence). rewrite V, nth_error_app1 by (apply nth_error_Some; congruence). exact Hx. }
  assert (K : match o with BAdd => f8_add a b | BSub => f8_sub a b | BMul => f8_mul a b | BTrueDiv => f8_truediv a b
         | BFloorDiv => f8_floordiv a b | BMod => f8_mod a b end = bin_fn o a b) by (destruct o; reflexivity).
  rewrite K. destruct (bin_fn o a b) as [z|e]; [split; [apply P|apply Q]|split; [reflexivity|tauto]].
Qed.
Print Assumptions C39_binary_result.
Theorem C39_unary_result : forall o i w a, value_in w i = Some a ->
  let w' := f8step w (SUn o i) in
  match (match o with UNeg => f8_neg a | UCeil => Ceil a | UFloor => Floor a end) with
  | Ok z => length (f8_vars w') = S (length (f8_vars w)) /\ value_in w' (length (f8_vars w)) = Some z
  | Raise _ => w' = w
  end.
Proof.
  intros o i w a Ha w'. unfold w'. cbn [f8step]. rewrite Ha.
  assert (K : match o with UNeg => f8_neg a | UCeil => Ceil a | UFloor => Floor a end = un_fn o a) by (destruct o; reflexivity).
  rewrite K. destruct (un_fn o a) as [z|]; [|reflexivity]. unfold value_in. cbn [f8_objs f8_vars].
  split; [rewrite app_length; cbn; lia|]. rewrite nth_error_app2, Nat.sub_diag by lia. cbn [nth_error]. rewrite nth_error_app2, Nat.sub_diag by lia. reflexivity.
Qed.
Print Assumptions C39_unary_result.
Theorem C39_new_and_alias : forall w z i a, value_in w i = Some a ->
  value_in (f8step w (SNew z)) (length (f8_vars w)) = Some z /\ value_in (f8step w (SNew z)) i = Some a /\
  value_in (f8step w (SAlias i)) (length (f8_vars w)) = Some a /\ value_in (f8step w (SAlias i)) i = Some a.
Proof.
  intros w z i a Ha. cbn [f8step]. unfold value_in in *. destruct (nth_error (f8_vars w) i) as [ob|] eqn:V; [|discriminate]. cbn [f8_objs f8_vars].
  assert (A : (i < length (f8_vars w))%nat) by (apply nth_error_Some; congruence).
  assert (B : (ob < length (f8_objs w))%nat) by (apply nth_error_Some; congruence).
  assert (N : forall T (l : list T) x, nth_error (l ++ [x]) (length l) = Some x).
  { intros T l x. rewrite nth_error_app2, Nat.sub_diag by lia. reflexivity. }
  rewrite !N, !nth_error_app1 by assumption. rewrite V, Ha. rewrite nth_error_app1 by exact B. rewrite Ha. auto.
Qed.
Print Assumptions C39_new_and_alias.
Example C39_example : f8_sub 100 300 = Ok (-200) /\
  (let w := run_f8 [SNew 5; SAlias 0; SNew 7; SInplace IAdd 0 2] (mkF8 [] []) in
   value_in w 0 = Some 12 /\ value_in w 1 = Some 5 /\ value_in w 2 = Some 7).
Proof. repeat split; reflexivity. Qed.

(** ** C40 Fixed8 multiplication and division are not rescaled *)
Theorem C40_raw_product : forall a b, f8_mul a b = Ok (a * b) /\ f8_imul a b = f8_mul a b /\
  f8_mul One a = Ok (100000000 * a) /\ (f8_mul One a = Ok a <-> a = 0).
Proof.
  intros a b. unfold f8_imul, f8_mul, One, D. repeat split; try reflexivity; intros H; [|f_equal; lia].
  assert (100000000 * a = a) by congruence. lia.
Qed.
Print Assumptions C40_raw_product.
Theorem C40_floor_division : forall a b, b <> 0 -> exists q r, f8_floordiv a b = Ok q /\ f8_mod a b = Ok r /\ f8_imod a b = Ok r /\
  a = q * b + r /\ Z.abs r < Z.abs b /\ (r = 0 \/ Z.sgn r = Z.sgn b).
Proof.
  intros a b H. exists (a / b), (a mod b). unfold f8_imod, f8_floordiv, f8_mod. replace (b =? 0) with false by lia.
  repeat (split; [reflexivity|]). pose proof (Z.div_mod a b H). split; [lia|].
  destruct (Z.lt_trichotomy b 0) as [L|[L|L]]; [pose proof (Z.mod_neg_bound a b L)|lia|pose proof (Z.mod_pos_bound a b L)]; split; lia.
Qed.
Print Assumptions C40_floor_division.
Theorem C40_zero_divisor : forall a, f8_floordiv a 0 = Raise ZeroDivisionError /\ f8_mod a 0 = Raise ZeroDivisionError /\ f8_imod a 0 = Raise ZeroDivisionError.
Proof. repeat split; reflexivity. Qed.
Print Assumptions C40_zero_divisor.
(** powers are repeated raw multiplication: also not rescaled *)
Theorem C40_power : forall a b, 0 <= b -> f8_pow a 0 = Ok 1 /\ f8_pow a (b + 1) = (do p <- f8_pow a b; f8_mul a p) /\
  (forall m, m <> 0 -> exists r, f8_powmod a b m = Ok r /\ (exists q, f8_pow a b = Ok (q * m + r)) /\ Z.abs r < Z.abs m /\ (r = 0 \/ Z.sgn r = Z.sgn m)) /\
  f8_powmod a b 0 = Raise ValueError.
Proof.
  intros a b H. unfold f8_pow, f8_powmod, f8_mul. cbn [rbind]. split; [reflexivity|]. split; [|split; [|reflexivity]].
  - f_equal. rewrite Z.pow_add_r, Z.pow_1_r by lia. lia.
  - intros m Hm. replace (m =? 0) with false by lia. exists (a ^ b mod m). split; [reflexivity|].
    pose proof (Z.div_mod (a ^ b) m Hm). split; [exists (a ^ b / m); f_equal; lia|].
    destruct (Z.lt_trichotomy m 0) as [L|[L|L]]; [pose proof (Z.mod_neg_bound (a ^ b) m L)|lia|pose proof (Z.mod_pos_bound (a ^ b) m L)]; split; lia.
Qed.
Print Assumptions C40_power.
(** dividing by One() gives the whole units, as satoshi *)
Theorem C40_division_by_One : forall a, f8_truediv a One = ToInt a.
Proof. reflexivity. Qed.
Print Assumptions C40_division_by_One.
Example C40_example : f8_mul 200000000 300000000 = Ok 60000000000000000 /\ f8_truediv 250000000 One = Ok 2 /\
  f8_floordiv (-7) 2 = Ok (-4) /\ f8_mod (-7) 2 = Ok 1.
Proof. repeat split; vm_compute; reflexivity. Qed.

(** ** C41 Fixed8 true division is exact up to 2^53 *)
Theorem C41_exact : forall a b, Z.abs a <= 2 ^ 53 -> b <> 0 -> f8_truediv a b = Ok (Z.quot a b).
Proof. exact truediv_exact. Qed.
Print Assumptions C41_exact.
Theorem C41_zero_divisor : forall a, f8_truediv a 0 = Raise ZeroDivisionError.
Proof. intros a. unfold f8_truediv. rewrite int_truediv_zero. reflexivity. Qed.
Print Assumptions C41_zero_divisor.
(** in general: the truncation of the correctly rounded quotient, or OverflowError *)
Theorem C41_general : forall a b, b <> 0 ->
  (~ overflows (IZR a / IZR b) -> f8_truediv a b = Ok (Ztrunc (rnd64 (IZR a / IZR b)))) /\
  (overflows (IZR a / IZR b) -> f8_truediv a b = Raise OverflowError).
Proof.
  intros a b H. unfold f8_truediv. destruct (int_truediv_spec a b H) as [(f & -> & F & N)|[O ->]].
  - split; [intros _; apply (py_int_spec _ _ F)|]. intros O. unfold overflows in O. exfalso. apply (Rlt_irrefl (bpow radix2 1024)). eapply Rle_lt_trans; eassumption.
  - split; [tauto|reflexivity].
Qed.
Print Assumptions C41_general.
Theorem C41_wrong_above : f8_truediv (2 ^ 53 + 1) 1 = Ok (2 ^ 53).
Proof. vm_compute. reflexivity. Qed.
Print Assumptions C41_wrong_above.
Example C41_example : Z.abs (-9007199254740991) <= 2 ^ 53 /\ f8_truediv (-9007199254740991) 9007199254740992 = Ok 0 /\
  f8_truediv (-27) 4 = Ok (-6) /\ f8_truediv (10 ^ 400) 1 = Raise OverflowError.
Proof. repeat split; vm_compute; congruence. Qed.

(** ** C42 Fixed8 Ceil, Floor and ToInt are exact up to 2^27 whole units *)
Theorem C42_floor : forall v, Z.abs v <= 2 ^ 27 * 100000000 -> exists q r,
  Floor v = Ok (q * 100000000) /\ v = q * 100000000 + r /\ 0 <= r < 100000000.
Proof.
  intros v H. exists (v / D), (v mod D). rewrite Floor_exact by exact H. pose proof (Z.div_mod v D ltac:(unfold D; lia)).
  pose proof (Z.mod_pos_bound v D ltac:(unfold D; lia)). unfold D in *. split; [reflexivity|lia].
Qed.
Print Assumptions C42_floor.
Theorem C42_ceil : forall v, Z.abs v <= 2 ^ 27 * 100000000 -> exists q r,
  Ceil v = Ok (q * 100000000) /\ v = q * 100000000 - r /\ 0 <= r < 100000000.
Proof.
  intros v H. exists (- ((- v) / D)), ((- v) mod D). rewrite Ceil_exact by exact H. pose proof (Z.div_mod (- v) D ltac:(unfold D; lia)).
  pose proof (Z.mod_pos_bound (- v) D ltac:(unfold D; lia)). unfold D in *. split; [reflexivity|lia].
Qed.
Print Assumptions C42_ceil.
Theorem C42_toint : forall v, Z.abs v <= 2 ^ 27 * 100000000 -> exists q,
  ToInt v = Ok q /\ Z.abs (q * 100000000) <= Z.abs v < Z.abs (q * 100000000) + 100000000 /\ 0 <= q * v.
Proof.
  intros v H. exists (Z.quot v D). rewrite ToInt_exact by exact H. split; [reflexivity|].
  pose proof (Z.quot_rem v D ltac:(unfold D; lia)). pose proof (Z.rem_bound_abs v D ltac:(unfold D; lia)).
  pose proof (Z.rem_sign_mul v D ltac:(unfold D; lia)). unfold D in *.
  destruct (Z.le_gt_cases 0 v); [assert (0 <= Z.quot v 100000000) by (apply Z.quot_pos; lia)|
    assert (Z.quot v 100000000 <= 0) by (replace v with (- (- v)) by lia; rewrite Z.quot_opp_l by lia; assert (0 <= Z.quot (- v) 100000000) by (apply Z.quot_pos; lia); lia)]; split; nia.
Qed.
Print Assumptions C42_toint.
(** the bound for Ceil cannot be moved *)
Theorem C42_ceil_wrong_above : Ceil (2 ^ 27 * 100000000 + 1) = Ok (2 ^ 27 * 100000000).
Proof. vm_compute. reflexivity. Qed.
Print Assumptions C42_ceil_wrong_above.
(** Floor and ToInt return more than the amount one unit further up *)
Theorem C42_floor_wrong_above : Floor ((2 ^ 27 + 1) * 100000000 - 1) = Ok ((2 ^ 27 + 1) * 100000000) /\
  ToInt ((2 ^ 27 + 1) * 100000000 - 1) = Ok (2 ^ 27 + 1).
Proof. split; vm_compute; reflexivity. Qed.
Print Assumptions C42_floor_wrong_above.
Example C42_example : Z.abs (-460000000) <= 2 ^ 27 * 100000000 /\ Floor (-460000000) = Ok (-500000000) /\
  Ceil (-460000000) = Ok (-400000000) /\ ToInt (-460000000) = Ok (-4) /\ Ceil 400000001 = Ok 500000000.
Proof. repeat split; vm_compute; congruence. Qed.

(** ** C43 Fixed8.FromDecimal *)
Theorem C43_int : forall n, FromDecimal_int n = Ok (n * 100000000).
Proof. reflexivity. Qed.
Print Assumptions C43_int.
Lemma signed (s : bool) v : cond_neg s v = (if s then -1 else 1) * v.
Proof. unfold cond_neg. destruct s; lia. Qed.
Lemma signed_abs (s : bool) v : 0 <= v -> Z.abs (cond_neg s v) = v.
Proof. intros H. unfold cond_neg. destruct s; lia. Qed.
(** A Decimal of at most 28 digits and eight decimals is read exactly, if the amount is below 10^1000000. *)
Theorem C43_decimal : forall s c e, 0 <= c < 10 ^ 28 -> -8 <= e ->
  (c * 10 ^ (8 + e) < decimal_limit -> FromDecimal_dec (mkDec s c e) = Ok ((if s then -1 else 1) * (c * 10 ^ (8 + e)))) /\
  (decimal_limit <= c * 10 ^ (8 + e) -> FromDecimal_dec (mkDec s c e) = Raise DecimalOverflow).
Proof.
  intros s c e H1 H2. rewrite (FromDecimal_dec_limit (mkDec s c e)) by (cbn [d_coef]; lia). rewrite dec_times_exact by assumption. rewrite <- signed.
  assert (P : 0 <= c * 10 ^ (8 + e)) by (apply Z.mul_nonneg_nonneg; [lia|apply Z.pow_nonneg; lia]). rewrite (signed_abs s _ P). generalize decimal_limit. intros L. split; intros B.
  - replace (_ <? L) with true by lia. reflexivity.
  - replace (_ <? L) with false by lia. reflexivity.
Qed.
Print Assumptions C43_decimal.
(** Any finite Decimal: c*10^8 is rounded to 28 significant digits, half to even, and the result cut
    towards zero; from 10^1000000 on decimal.Overflow is raised. *)
Theorem C43_decimal_any : forall s c e k m, 0 <= c ->
  (k = 0 /\ c * 10 ^ 8 < 10 ^ 28 /\ m = c * 10 ^ 8) \/
  (0 < k /\ 10 ^ (27 + k) <= c * 10 ^ 8 < 10 ^ (28 + k) /\ 2 * Z.abs (c * 10 ^ 8 - m * 10 ^ k) <= 10 ^ k /\
   (2 * Z.abs (c * 10 ^ 8 - m * 10 ^ k) = 10 ^ k -> Z.Even m)) ->
  forall n, n = (if 0 <=? e + k then m * 10 ^ (e + k) else m / 10 ^ (- (e + k))) ->
  (n < decimal_limit -> FromDecimal_dec (mkDec s c e) = Ok ((if s then -1 else 1) * n)) /\
  (decimal_limit <= n -> FromDecimal_dec (mkDec s c e) = Raise DecimalOverflow).
Proof.
  intros s c e k m Hc H n ->. rewrite (FromDecimal_dec_limit (mkDec s c e)) by (cbn [d_coef]; lia). rewrite (dec_times_rounds s c e k m Hc H). rewrite <- signed.
  assert (M : 0 <= m). { destruct H as [(_ & _ & ->)|(Hk & H1 & H2 & _)]; [lia|]. assert (0 < 10 ^ k) by (apply Z.pow_pos_nonneg; lia). assert (0 < 10 ^ (27 + k)) by (apply Z.pow_pos_nonneg; lia). nia. }
  set (n := if 0 <=? e + k then _ else _). assert (P : 0 <= n).
  { unfold n. destruct (0 <=? e + k) eqn:E; [apply Z.mul_nonneg_nonneg; [exact M|apply Z.pow_nonneg; lia]|apply Z.div_pos; [exact M|apply Z.pow_pos_nonneg; lia]]. }
  rewrite (signed_abs s _ P). generalize decimal_limit. intros L. split; intros B.
  - replace (n <? L) with true by lia. reflexivity.
  - replace (n <? L) with false by lia. reflexivity.
Qed.
Print Assumptions C43_decimal_any.
(** Amounts that fit in the 64 bits WriteFixed8 has, and far beyond, are below the limit; Decimal('1e1000000') is not *)
Theorem C43_limit : forall n, n < 10 ^ 1000 -> n < decimal_limit.
Proof. intros n H. apply Z.lt_le_trans with (1 := H). unfold decimal_limit. apply Z.pow_le_mono_r; lia. Qed.
Print Assumptions C43_limit.
Theorem C43_out_of_range : forall s c e, 0 < c -> 1000000 <= e + 8 -> FromDecimal_dec (mkDec s c e) = Raise DecimalOverflow.
Proof.
  intros s c e Hc He. unfold FromDecimal_dec. enough (dec_check (dec_mul_int (mkDec s c e) D) = Raise DecimalOverflow) as -> by reflexivity.
  unfold dec_mul_int, dec_fix. cbn [d_coef d_exp d_sign]. change (Z.abs D) with (10 ^ 8). destruct (dec_digits_spec (c * 10 ^ 8) ltac:(lia)) as (D1 & D2 & _).
  assert (8 < dec_digits (c * 10 ^ 8)). { destruct (Z.le_gt_cases (dec_digits (c * 10 ^ 8)) 8) as [L|L]; [|lia]. assert (10 ^ dec_digits (c * 10 ^ 8) <= 10 ^ 8) by (apply Z.pow_le_mono_r; lia). lia. }
  destruct (dec_digits (c * 10 ^ 8) - 28 <=? 0) eqn:E.
  - unfold dec_check. cbn [d_coef d_exp]. replace (c * 10 ^ 8 =? 0) with false by lia. replace (999999 <? _) with true by lia. reflexivity.
  - set (k := dec_digits (c * 10 ^ 8) - 28) in *. destruct (dec_digits_spec (c * 10 ^ 8) ltac:(lia)) as (_ & _ & [D3|D3]); [lia|].
    assert (P : 0 < 10 ^ k) by (apply Z.pow_pos_nonneg; lia).
    assert (R1 : 10 ^ 27 <= round_half_even (c * 10 ^ 8) k).
    { unfold round_half_even. assert (10 ^ 27 <= c * 10 ^ 8 / 10 ^ k); [|repeat match goal with |- context [if ?b then _ else _] => destruct b end; lia].
      apply Z.div_le_lower_bound; [exact P|]. rewrite <- Z.pow_add_r by lia. replace (k + 27) with (dec_digits (c * 10 ^ 8) - 1) by (unfold k; lia). exact D3. }
    destruct (28 <? dec_digits (round_half_even (c * 10 ^ 8) k)) eqn:F; unfold dec_check; cbn [d_coef d_exp].
    + assert (10 ^ 26 <= round_half_even (c * 10 ^ 8) k / 10) by (apply Z.div_le_lower_bound; lia). destruct (dec_digits_spec (round_half_even (c * 10 ^ 8) k / 10) ltac:(lia)) as (G & G2 & _).
      assert (27 <= dec_digits (round_half_even (c * 10 ^ 8) k / 10)). { destruct (Z.le_gt_cases 27 (dec_digits (round_half_even (c * 10 ^ 8) k / 10))) as [L|L]; [exact L|]. assert (10 ^ dec_digits (round_half_even (c * 10 ^ 8) k / 10) <= 10 ^ 26) by (apply Z.pow_le_mono_r; lia). lia. }
      replace (_ =? 0) with false by lia. replace (999999 <? _) with true by lia. reflexivity.
    + destruct (dec_digits_spec (round_half_even (c * 10 ^ 8) k) ltac:(lia)) as (G1 & G2 & _). replace (_ =? 0) with false by lia.
      assert (28 <= dec_digits (round_half_even (c * 10 ^ 8) k)). { destruct (Z.le_gt_cases 28 (dec_digits (round_half_even (c * 10 ^ 8) k))) as [L|L]; [exact L|]. assert (10 ^ dec_digits (round_half_even (c * 10 ^ 8) k) <= 10 ^ 27) by (apply Z.pow_le_mono_r; lia). lia. }
      replace (999999 <? _) with true by lia. reflexivity.
Qed.
Print Assumptions C43_out_of_range.
Theorem C43_decimal_not_finite : (forall neg, FromDecimal_decimal (DecInf neg) = Raise OverflowError) /\
  FromDecimal_decimal (DecNaN false) = Raise ValueError /\ FromDecimal_decimal (DecNaN true) = Raise InvalidOperation /\
  (forall x, FromDecimal_decimal (DecFinite x) = FromDecimal_dec x).
Proof. repeat split. Qed.
Print Assumptions C43_decimal_not_finite.
(** ties: 28 nines after the point and a half more *)
Example C43_decimal_example :
  FromDecimal_dec (mkDec false 12345678901234567890123456785 (-8)) = Ok 12345678901234567890123456780 /\
  FromDecimal_dec (mkDec true 12345678901234567890123456775 (-8)) = Ok (-12345678901234567890123456780) /\
  FromDecimal_dec (mkDec false 99999999999999999999999999999 (-8)) = Ok 100000000000000000000000000000 /\
  FromDecimal_dec (mkDec true 19 (-10)) = Ok 0 /\
  (0 < 9 /\ 10 ^ (27 + 9) <= 12345678901234567890123456785 * 10 ^ 8 < 10 ^ (28 + 9) /\
   2 * Z.abs (12345678901234567890123456785 * 10 ^ 8 - 1234567890123456789012345678 * 10 ^ 9) = 10 ^ 9).
Proof. repeat split; vm_compute; congruence. Qed.
Theorem C43_float : forall f x, float_is f x ->
  (~ overflows (x * 100000000) -> FromDecimal_float f = Ok (Ztrunc (rnd64 (x * 100000000)))) /\
  (overflows (x * 100000000) -> FromDecimal_float f = Raise OverflowError).
Proof. exact times_D. Qed.
Print Assumptions C43_float.
Theorem C43_not_finite : (forall s, FromDecimal_float (S754_infinity s) = Raise OverflowError) /\ FromDecimal_float S754_nan = Raise ValueError.
Proof. split; reflexivity. Qed.
Print Assumptions C43_not_finite.
(** the float nearest to n satoshi gives n or one satoshi less (in absolute value) *)
Theorem C43_nearest_float : forall f n, Z.abs n < 2 ^ 52 -> float_is f (rnd64 (IZR n / 100000000)) ->
  exists r, FromDecimal_float f = Ok r /\ at_most_one_short r n.
Proof. exact nearest_times_D. Qed.
Print Assumptions C43_nearest_float.
(** whole amounts up to 23058430092 units are exact *)
Theorem C43_whole_float : forall f k, Z.abs k <= 23058430092 -> float_is f (IZR k) -> FromDecimal_float f = Ok (k * 100000000).
Proof. intros f k H. apply whole_times_D. lia. Qed.
Print Assumptions C43_whole_float.
(** 0.29 (the float literal) *)
Example C43_example : let f029 := S754_finite false 5224175567749775 (-54) in
  int_truediv 29 100 = Ok f029 /\ FromDecimal_float f029 = Ok 28999999 /\
  FromDecimal_dec (mkDec false 29 (-2)) = Ok 29000000 /\
  FromDecimal_float (S754_finite false 8980923389743192 (-42)) = Ok 204202556000.
Proof. repeat split; vm_compute; reflexivity. Qed.

(** ** C44 Fixed8.TryParse *)
(** A text is parsed as float() does; without a float value the result is None. *)
Theorem C44_text : forall s rp, TryParse (PText s) rp =
  match float_of_text s with
  | None => Ok None
  | Some f => if rp && fneg f then Ok None else do r <- FromDecimal_float f; Ok (Some r)
  end.
Proof. exact TryParse_text. Qed.
Print Assumptions C44_text.
(** Plain decimal texts with at most 8 decimals: right, or one satoshi short. *)
Theorem C44_plain_decimal : forall neg ip fp s, plain_decimal neg ip fp s -> zlen fp <= 8 -> satoshi_of ip fp < 2 ^ 52 ->
  exists r, TryParse (PText s) false = Ok (Some r) /\ at_most_one_short r ((if neg then -1 else 1) * satoshi_of ip fp).
Proof.
  intros neg ip fp s Hs Hl Hn.
  assert (Hp : 0 <= satoshi_of ip fp).
  { apply Z.mul_nonneg_nonneg; [apply decimal_number_nonneg, Forall_app; split; apply Hs|apply Z.pow_nonneg; lia]. }
  assert (E : cond_neg neg (satoshi_of ip fp) = (if neg then -1 else 1) * satoshi_of ip fp) by (destruct neg; cbn [cond_neg]; lia).
  rewrite <- E. apply (TryParse_plain neg ip fp s Hs Hl). destruct neg; cbn [cond_neg]; lia.
Qed.
Print Assumptions C44_plain_decimal.
Theorem C44_whole_text : forall neg ip s, plain_decimal neg ip [] s -> decimal_number ip <= 23058430092 ->
  TryParse (PText s) false = Ok (Some ((if neg then -1 else 1) * decimal_number ip * 100000000)).
Proof.
  intros neg ip s Hs Hn. rewrite (TryParse_whole neg ip s Hs) by lia. do 2 f_equal. unfold D. destruct neg; cbn [cond_neg]; lia.
Qed.
Print Assumptions C44_whole_text.
Theorem C44_int : forall z rp, Z.abs z <= 23058430092 ->
  TryParse (PInt z) rp = Ok (if rp && (z <? 0) then None else Some (z * 100000000)).
Proof. intros z rp H. apply TryParse_int. lia. Qed.
Print Assumptions C44_int.
(** an int too large for a float is still parsed, exactly *)
Theorem C44_huge_int : forall z rp, overflows (IZR z) -> TryParse (PInt z) rp = Ok (if rp && (z <? 0) then None else Some (z * 100000000)).
Proof.
  intros z rp O. destruct (Z.eq_dec z 0) as [->|N].
  - exfalso. revert O. apply small_no_overflow. rewrite Rabs_R0. apply IZR_le. lia.
  - unfold TryParse, second_try. destruct (float_of_int_spec z N) as [(f & E & F & T)|[_ ->]].
    + exfalso. unfold overflows in O. destruct (int_rounded z N) as [V [(R & _)|[_ R]]]; [apply (Rlt_irrefl (bpow radix2 1024)); eapply Rle_lt_trans; eassumption|].
      unfold float_of_int, fprec, femax in E. rewrite R in E. discriminate.
    + cbn [res_opt option_map finish_parse]. destruct (rp && (z <? 0)); reflexivity.
Qed.
Print Assumptions C44_huge_int.
(** require_positive: a negative number gives None, everything else is as without it *)
Theorem C44_require_positive : forall s f x, float_of_text s = Some f -> float_is f x ->
  TryParse (PText s) true = if Rlt_bool x 0 then Ok None else TryParse (PText s) false.
Proof.
  intros s f x Hs Hf. rewrite !TryParse_text, Hs. cbn [andb]. case Rlt_bool_spec; intros H.
  - rewrite (proj2 (fneg_sign _ _ Hf) H). reflexivity.
  - destruct (fneg f) eqn:E; [|reflexivity]. apply (fneg_sign _ _ Hf) in E. exfalso. apply (Rlt_irrefl 0). eapply Rle_lt_trans; eassumption.
Qed.
Print Assumptions C44_require_positive.
Theorem C44_not_finite_raises : forall rp, TryParse (PText (str "nan")) rp = Raise ValueError /\
  TryParse (PText (str "inf")) rp = Raise OverflowError /\ TryParse (PText (str "1e400")) rp = Raise OverflowError /\
  TryParse (PFloat S754_nan) rp = Raise ValueError /\ TryParse (PFloat (S754_infinity false)) rp = Raise OverflowError.
Proof. intros [|]; repeat split; vm_compute; reflexivity. Qed.
Print Assumptions C44_not_finite_raises.
Example C44_example : plain_decimal false (str "0") (str "29") (str "0.29") /\ satoshi_of (str "0") (str "29") = 29000000 /\
  TryParse (PText (str "0.29")) false = Ok (Some 28999999) /\ TryParse (PText (str " -12.5e-1 ")) false = Ok (Some (-125000000)) /\
  TryParse (PText (str "-1")) true = Ok None /\ TryParse (PText (str "foo")) false = Ok None /\ TryParse (PInt (-1)) true = Ok None /\
  TryParse PNone false = Ok None /\ TryParse (PText (str "0")) false = Ok (Some 0).
Proof.
  split; [|repeat split; vm_compute; reflexivity].
  split; [discriminate|]. split; [|split; [|left; reflexivity]]; repeat constructor; unfold digit_code; vm_compute; congruence.
Qed.
