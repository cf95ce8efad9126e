(** * P_Fixed8Float: amounts that hold a float (C110) *)
From Coq Require Import Reals Lia Lra String.
From Flocq Require Import Core.
From Flocq Require Import BinarySingleNaN.
From Coq Require Import Floats.SpecFloat.
From Verif Require Import M_Py M_Float M_UInt M_Writer M_WriterArgs M_Fixed8 M_Fixed8Heap M_FloatRepr M_Fixed8Float S_IO S_Float S_Fixed8Float L_Float L_Fixed8Float.
Open Scope Z_scope.

Local Instance Hprec : FLX.Prec_gt_0 53 := eq_refl _.
Local Instance Hmax : Prec_lt_emax 53 1024 := eq_refl _.

(** ** C110: such an amount cannot be written, and nothing is written; one that holds an int is
    written as before *)
Theorem C110_not_written : forall f, refuses (ff_Write (NumFloat f)) StructError.
Proof. intros f s. reflexivity. Qed.
Print Assumptions C110_not_written.
(** with ints in both places everything is as in M_Fixed8 *)
Theorem C110_ints : forall a b,
  (forall o, ff_bin o (NumInt a) (NumInt b) = rmap NumInt (bin_fn o a b)) /\
  (forall o, ff_un o (NumInt a) = rmap NumInt (un_fn o a)) /\
  (forall libm, 0 <= b -> ff_pow libm a b = rmap NumInt (f8_pow a b)) /\
  ff_eq (NumInt a) (NumInt b) = f8_eq a b /\ ff_lt (NumInt a) (NumInt b) = f8_lt a b /\ ff_gt (NumInt a) (NumInt b) = f8_gt a b /\
  ff_ge (NumInt a) (NumInt b) = f8_ge a b /\ ff_le (NumInt a) (NumInt b) = f8_le a b /\
  ff_ToInt (NumInt a) = ToInt a /\ ff_ToString (NumInt a) = ToString a /\ ff_Write (NumInt a) = WriteFixed8 a.
Proof.
  intros a b. split; [|split; [|split]].
  - intros []; try reflexivity; cbn [ff_bin bin_fn]; unfold ff_truediv, f8_truediv, ff_mod, num_op, num_truediv.
    + destruct (int_truediv a b); [cbn [rbind]|]; reflexivity.
    + destruct (f8_mod a b); reflexivity.
  - intros []; try reflexivity; cbn [ff_un un_fn]; unfold ff_Ceil, ff_Floor, Ceil, Floor; cbn [num_truediv].
    + destruct (int_truediv a D); [cbn [rbind]; destruct (py_ceil _)|]; reflexivity.
    + destruct (int_truediv a D); [cbn [rbind]; destruct (py_floor _)|]; reflexivity.
  - intros libm H. unfold ff_pow. rewrite (proj2 (Z.ltb_ge b 0)) by exact H. reflexivity.
  - unfold ff_eq, ff_lt, ff_gt, ff_ge, ff_le, f8_eq, f8_lt, f8_gt, f8_ge, f8_le. cbn [num_compare].
    unfold Z.ltb, Z.gtb, Z.geb, Z.leb. rewrite Z.eqb_compare. destruct (a ?= b); repeat split; reflexivity.
Qed.
Print Assumptions C110_ints.

(** ** a float operand makes a sum, difference, product and floor quotient a float; only / and %
    (which go through int()) and Ceil/Floor give an int again *)
Theorem C110_contagious : forall o a b r, is_float a \/ is_float b -> ff_bin o a b = Ok r ->
  match o with BAdd | BSub | BMul | BFloorDiv => is_float r | BTrueDiv | BMod => ~ is_float r end.
Proof.
  intros o a b r F E.
  assert (G : forall i g, num_op i g a b = Ok r -> is_float r).
  { intros i g H. assert (H' : (do x <- to_double a; do y <- to_double b; rmap NumFloat (g x y)) = Ok r) by (destruct F as [[f ->]|[f ->]]; [exact H|destruct a; exact H]).
    destruct (to_double a) as [x|]; [cbn [rbind] in H'|discriminate]. destruct (to_double b) as [y|]; [cbn [rbind] in H'|discriminate].
    destruct (g x y) as [w|]; [|discriminate]. exists w. cbn [rmap] in H'. congruence. }
  assert (I : forall q : res Z, rmap NumInt q = Ok r -> ~ is_float r) by (intros [q|] H [f ->]; discriminate).
  destruct o; cbn [ff_bin] in E.
  - apply (G _ _ E).
  - apply (G _ _ E).
  - apply (G _ _ E).
  - unfold ff_truediv in E. destruct (num_truediv a b) as [q|]; [|discriminate]. apply (I _ E).
  - apply (G _ _ E).
  - unfold ff_mod in E. destruct (num_op f8_mod (nonzero frem) a b) as [q|]; [|discriminate]. apply (I _ E).
Qed.
Print Assumptions C110_contagious.
Theorem C110_unary : forall f r, (ff_neg (NumFloat f) = Ok r -> is_float r) /\ (ff_Ceil (NumFloat f) = Ok r -> ~ is_float r) /\ (ff_Floor (NumFloat f) = Ok r -> ~ is_float r).
Proof.
  intros f r. split; [|split].
  - intros E. unfold ff_neg, ff_mul, num_op in E. cbn [to_double] in E. destruct (float_of_int (-1)) as [x|]; [cbn [rbind rmap] in E|discriminate]. exists (fmul x f). congruence.
  - intros E [g ->]. unfold ff_Ceil in E. destruct (num_truediv _ _) as [q|]; [cbn [rbind] in E|discriminate]. destruct (py_ceil q); discriminate.
  - intros E [g ->]. unfold ff_Floor in E. destruct (num_truediv _ _) as [q|]; [cbn [rbind] in E|discriminate]. destruct (py_floor q); discriminate.
Qed.
Print Assumptions C110_unary.
(** the only operator that makes a float of ints is ** with a negative exponent, which never gives an int *)
Theorem C110_from_ints : forall n, built_from_ints n -> exists z, n = NumInt z.
Proof.
  intros n B. induction B as [z|o a b r _ [x ->] _ [y ->] E|o a r _ [x ->] E|libm a b r _ _ _ _ H E].
  - exists z. reflexivity.
  - rewrite (proj1 (C110_ints x y)) in E. destruct (bin_fn o x y) as [w|]; [|discriminate]. exists w. cbn [rmap] in E. congruence.
  - rewrite (proj1 (proj2 (C110_ints x x))) in E. destruct (un_fn o x) as [w|]; [|discriminate]. exists w. cbn [rmap] in E. congruence.
  - rewrite (proj1 (proj2 (proj2 (C110_ints a b))) libm H) in E. unfold f8_pow in E. exists (a ^ b). cbn [rmap] in E. congruence.
Qed.
Print Assumptions C110_from_ints.
Theorem C110_negative_exponent : forall libm a b, b < 0 ->
  (a = 0 -> ~ overflows (IZR b) -> ff_pow libm a b = Raise ZeroDivisionError) /\
  (a <> 0 -> ~ overflows (IZR a) -> ~ overflows (IZR b) -> exists x y, float_is x (rnd64 (IZR a)) /\ float_is y (rnd64 (IZR b)) /\ ff_pow libm a b = Ok (NumFloat (libm x y))) /\
  (overflows (IZR a) \/ overflows (IZR b) -> ff_pow libm a b = Raise OverflowError).
Proof.
  intros libm a b H. unfold ff_pow. rewrite (proj2 (Z.ltb_lt b 0)) by exact H. split; [|split].
  - intros -> O. destruct (float_of_int_is b O) as (y & -> & _). reflexivity.
  - intros N Oa Ob. destruct (float_of_int_is a Oa) as (x & -> & X). destruct (float_of_int_is b Ob) as (y & -> & Y). cbn [rbind].
    destruct (fis0 x) eqn:Z0; [|exists x, y; repeat split; try reflexivity; apply X || apply Y].
    exfalso. apply (fis0_is _ _ X) in Z0.
    assert (Q : (1 <= Rabs (rnd64 (IZR a)))%R).
    { destruct (Z_lt_le_dec a 0) as [L|L].
      - assert (rnd64 (IZR a) <= -1)%R by (apply rnd64_le; [lia|apply IZR_le; lia]). rewrite Rabs_left by lra. lra.
      - assert (1 <= rnd64 (IZR a))%R by (apply rnd64_ge; [lia|apply IZR_le; lia]). rewrite Rabs_pos_eq by lra. lra. }
    rewrite Z0, Rabs_R0 in Q. lra.
  - intros O. destruct (float_of_int a) as [x|e] eqn:Ea.
    + destruct O as [O|O]; [rewrite (float_of_int_overflow a O) in Ea; discriminate|]. cbn [rbind]. rewrite (float_of_int_overflow b O). reflexivity.
    + cbn [rbind]. unfold float_of_int in Ea. destruct (SpecFloat.binary_normalize fprec femax a 0 false); congruence.
Qed.
Print Assumptions C110_negative_exponent.

(** ** comparisons are exact, also between an int and a float; nan compares false with everything *)
Lemma compare_is a b x y : num_is a x -> num_is b y -> num_compare a b = Some (Rcompare x y).
Proof.
  intros A B. destruct a as [z|f], b as [w|g]; cbn [num_is num_compare] in *.
  - rewrite A, B, Rcompare_IZR. reflexivity.
  - rewrite A. apply cmp_int_float_is, B.
  - rewrite B, (cmp_int_float_is w f x A). cbn [option_map]. rewrite Rcompare_sym, CompOpp_involutive. reflexivity.
  - apply fcompare_is; assumption.
Qed.
Theorem C110_comparisons : forall a b x y, num_is a x -> num_is b y ->
  (ff_eq a b = true <-> x = y) /\ (ff_lt a b = true <-> (x < y)%R) /\ (ff_gt a b = true <-> (x > y)%R) /\
  (ff_ge a b = true <-> (x >= y)%R) /\ (ff_le a b = true <-> (x <= y)%R).
Proof.
  intros a b x y A B. unfold ff_eq, ff_lt, ff_gt, ff_ge, ff_le. rewrite (compare_is a b x y A B).
  case Rcompare_spec; intros H; repeat split; intros; try reflexivity; try discriminate; try lra.
Qed.
Print Assumptions C110_comparisons.
Theorem C110_nan : forall a, let nan := NumFloat S754_nan in
  ff_eq a nan = false /\ ff_lt a nan = false /\ ff_gt a nan = false /\ ff_ge a nan = false /\ ff_le a nan = false /\
  ff_eq nan a = false /\ ff_lt nan a = false /\ ff_gt nan a = false /\ ff_ge nan a = false /\ ff_le nan a = false.
Proof. intros [z|[s|s| |s m e]]; repeat split. Qed.
Print Assumptions C110_nan.
(** the infinities lie outside all numbers *)
Theorem C110_infinity : forall (a : number) (x : R), num_is a x ->
  ff_lt a (NumFloat (S754_infinity false)) = true /\ ff_gt a (NumFloat (S754_infinity true)) = true /\
  ff_lt (NumFloat (S754_infinity true)) a = true /\ ff_gt (NumFloat (S754_infinity false)) a = true /\
  (forall s : bool, ff_eq a (NumFloat (S754_infinity s)) = false /\ ff_eq (NumFloat (S754_infinity s)) a = false) /\
  ff_lt (NumFloat (S754_infinity true)) (NumFloat (S754_infinity false)) = true.
Proof. intros [z|[t|t| |t m e]] x A; try (destruct A as (A & _); discriminate); repeat split; destruct s; reflexivity. Qed.
Print Assumptions C110_infinity.

(** from nan and the infinities no int can be made: ValueError and OverflowError *)
Theorem C110_no_int : forall f : pyfloat, f = S754_nan \/ (exists s, f = S754_infinity s) ->
  let refused {A} (r : res A) := match f with S754_nan => r = Raise ValueError | _ => r = Raise OverflowError end in
  refused (ff_Ceil (NumFloat f)) /\ refused (ff_Floor (NumFloat f)) /\ refused (ff_ToInt (NumFloat f)) /\
  (forall s m e, refused (ff_truediv (NumFloat f) (NumFloat (S754_finite s m e))) /\
     ff_mod (NumFloat f) (NumFloat (S754_finite s m e)) = Raise ValueError).
Proof.
  intros f F. assert (M : forall s m e, fmod f (S754_finite s m e) = S754_nan) by (destruct F as [->|[t ->]]; reflexivity).
  assert (R : forall s m e, frem f (S754_finite s m e) = S754_nan).
  { intros s m e. unfold frem. rewrite M. cbn [fis0 ftruthy negb]. destruct (xorb _ _); reflexivity. }
  assert (E : forall s m e, ff_mod (NumFloat f) (NumFloat (S754_finite s m e)) = Raise ValueError).
  { intros s m e. unfold ff_mod. cbn [num_op to_double rbind]. unfold nonzero. cbn [fis0 ftruthy negb rmap rbind]. rewrite R. reflexivity. }
  destruct F as [->|[t ->]]; cbv zeta; (split; [destruct t || idtac; reflexivity|]); (split; [destruct t || idtac; reflexivity|]); (split; [destruct t || idtac; reflexivity|]); intros s m e; (split; [|apply E]); reflexivity.
Qed.
Print Assumptions C110_no_int.

(** ** the arithmetic: ints are rounded to floats first, then the result is rounded *)
Lemma to_double_is a x : num_is a x -> ~ overflows x -> exists f, to_double a = Ok f /\ float_is f (rnd64 x).
Proof.
  intros A O. destruct a as [z|f]; cbn [num_is to_double] in *.
  - subst x. apply float_of_int_is, O.
  - exists f. split; [reflexivity|]. rewrite (float_rnd _ _ A). exact A.
Qed.
Lemma not_over x : ~ overflows x -> fits x.
Proof. unfold overflows, fits. lra. Qed.
Lemma num_op_float i g a b x y : is_float a \/ is_float b -> to_double a = Ok x -> to_double b = Ok y -> num_op i g a b = rmap NumFloat (g x y).
Proof.
  intros F A B. assert (E : num_op i g a b = (do x <- to_double a; do y <- to_double b; rmap NumFloat (g x y))) by (destruct F as [[f ->]|[f ->]]; [|destruct a]; reflexivity).
  rewrite E, A, B. reflexivity.
Qed.
Lemma div_float a b x y : is_float a \/ is_float b -> to_double a = Ok x -> to_double b = Ok y -> num_truediv a b = nonzero fdiv x y.
Proof.
  intros F A B. assert (E : num_truediv a b = (do x <- to_double a; do y <- to_double b; nonzero fdiv x y)) by (destruct F as [[f ->]|[f ->]]; [|destruct a]; reflexivity).
  rewrite E, A, B. reflexivity.
Qed.
Lemma fis0_false g y : float_is g y -> y <> 0%R -> fis0 g = false.
Proof. intros B N. destruct (fis0 g) eqn:E; [|reflexivity]. apply (fis0_is _ _ B) in E. contradiction. Qed.
Theorem C110_arithmetic : forall a b x y, num_is a x -> num_is b y -> is_float a \/ is_float b -> ~ overflows x -> ~ overflows y ->
  let u := rnd64 x in let v := rnd64 y in
  (~ overflows (u + v) -> exists f, ff_add a b = Ok (NumFloat f) /\ float_is f (rnd64 (u + v))) /\
  (~ overflows (u - v) -> exists f, ff_sub a b = Ok (NumFloat f) /\ float_is f (rnd64 (u - v))) /\
  (~ overflows (u * v) -> exists f, ff_mul a b = Ok (NumFloat f) /\ float_is f (rnd64 (u * v))) /\
  (v <> 0%R -> ~ overflows (u / v) -> ff_truediv a b = Ok (NumInt (Ztrunc (rnd64 (u / v))))) /\
  (v <> 0%R -> ff_mod a b = Ok (NumInt (Ztrunc (rnd64 (u - v * IZR (Zfloor (u / v))))))) /\
  (v = 0%R -> ff_truediv a b = Raise ZeroDivisionError /\ ff_floordiv a b = Raise ZeroDivisionError /\ ff_mod a b = Raise ZeroDivisionError).
Proof.
  intros a b x y A B F Ox Oy u v. destruct (to_double_is a x A Ox) as (f & Ef & Hf). destruct (to_double_is b y B Oy) as (g & Eg & Hg). fold u in Hf. fold v in Hg.
  repeat split.
  - intros O. exists (fadd f g). split; [|apply fadd_is; [exact Hf|exact Hg|apply not_over, O]]. unfold ff_add. rewrite (num_op_float _ _ a b f g F Ef Eg). reflexivity.
  - intros O. exists (fsub f g). split; [|apply fsub_is; [exact Hf|exact Hg|apply not_over, O]]. unfold ff_sub. rewrite (num_op_float _ _ a b f g F Ef Eg). reflexivity.
  - intros O. exists (fmul f g). split; [|apply fmul_is; [exact Hf|exact Hg|apply not_over, O]]. unfold ff_mul. rewrite (num_op_float _ _ a b f g F Ef Eg). reflexivity.
  - intros N O. unfold ff_truediv. rewrite (div_float a b f g F Ef Eg). unfold nonzero. rewrite (fis0_false g v Hg N). cbn [rbind].
    rewrite (py_int_spec _ _ (fdiv_is f g u v Hf Hg N (not_over _ O))). reflexivity.
  - intros N. unfold ff_mod. rewrite (num_op_float _ _ a b f g F Ef Eg). unfold nonzero. rewrite (fis0_false g v Hg N). cbn [rmap rbind num_int].
    rewrite (py_int_spec _ _ (frem_is f g u v Hf Hg N)). reflexivity.
  - unfold ff_truediv. rewrite (div_float a b f g F Ef Eg). unfold nonzero. rewrite (proj2 (fis0_is g v Hg) H). reflexivity.
  - unfold ff_floordiv. rewrite (num_op_float _ _ a b f g F Ef Eg). unfold nonzero. rewrite (proj2 (fis0_is g v Hg) H). reflexivity.
  - unfold ff_mod. rewrite (num_op_float _ _ a b f g F Ef Eg). unfold nonzero. rewrite (proj2 (fis0_is g v Hg) H). reflexivity.
Qed.
Print Assumptions C110_arithmetic.
(** floor division of floats is exact for quotients up to 2^48 *)
Theorem C110_floordiv : forall a b x y, num_is a x -> num_is b y -> is_float a \/ is_float b -> ~ overflows x -> ~ overflows y ->
  let u := rnd64 x in let v := rnd64 y in v <> 0%R -> (Rabs (u / v) <= IZR (2 ^ 48))%R ->
  exists f, ff_floordiv a b = Ok (NumFloat f) /\ float_is f (IZR (Zfloor (u / v))).
Proof.
  intros a b x y A B F Ox Oy u v N Q. destruct (to_double_is a x A Ox) as (f & Ef & Hf). destruct (to_double_is b y B Oy) as (g & Eg & Hg). fold u in Hf. fold v in Hg.
  exists (ffloordiv f g). split; [|exact (ffloordiv_is f g u v Hf Hg N Q)]. unfold ff_floordiv. rewrite (num_op_float _ _ a b f g F Ef Eg). unfold nonzero.
  rewrite (fis0_false g v Hg N). reflexivity.
Qed.
Print Assumptions C110_floordiv.
(** zero divided by a negative number is -0.0, and prints like that *)
Theorem C110_zero_quotient : forall (s : bool) b y, num_is b y -> ~ overflows y -> rnd64 y <> 0%R ->
  ff_floordiv (NumFloat (S754_zero s)) b = Ok (NumFloat (S754_zero (xorb s (Rlt_bool (rnd64 y) 0)))) /\
  ff_ToString (NumFloat (S754_zero s)) = Ok (str (if s then "-0.0" else "0.0")).
Proof.
  intros s b y B O N. destruct (to_double_is b y B O) as (g & Eg & Hg). split; [|destruct s; vm_compute; reflexivity].
  unfold ff_floordiv. rewrite (num_op_float _ _ (NumFloat (S754_zero s)) b (S754_zero s) g (or_introl (ex_intro _ _ eq_refl)) eq_refl Eg). unfold nonzero.
  rewrite (fis0_false g _ Hg N). cbv beta iota. do 3 f_equal. destruct Hg as (Fi & _ & V).
  destruct g as [t|t| |t m e]; try discriminate Fi.
  - exfalso. apply N. rewrite <- V. reflexivity.
  - replace (Rlt_bool (rnd64 y) 0) with t. { destruct s, t; reflexivity. }
    rewrite <- V. pose proof (SF2R_sign t m e) as K. destruct t; symmetry; [apply Rlt_bool_true|apply Rlt_bool_false]; lra.
Qed.
Print Assumptions C110_zero_quotient.
(** whole numbers up to 2^53: the float operations are exact *)
Theorem C110_whole_numbers : forall a b m n, num_is a (IZR m) -> num_is b (IZR n) -> is_float a \/ is_float b -> Z.abs m <= 2 ^ 53 -> Z.abs n <= 2 ^ 53 ->
  (Z.abs (m + n) <= 2 ^ 53 -> exists r, ff_add a b = Ok r /\ num_is r (IZR (m + n))) /\
  (Z.abs (m - n) <= 2 ^ 53 -> exists r, ff_sub a b = Ok r /\ num_is r (IZR (m - n))) /\
  (Z.abs (m * n) <= 2 ^ 53 -> exists r, ff_mul a b = Ok r /\ num_is r (IZR (m * n))) /\
  (n <> 0 -> exists r, ff_floordiv a b = Ok r /\ num_is r (IZR (m / n))) /\
  (n <> 0 -> ff_mod a b = Ok (NumInt (m mod n))).
Proof.
  intros a b m n A B F Hm Hn. assert (NO : forall k, Z.abs k <= 2 ^ 53 -> ~ overflows (IZR k)) by (intros k Hk; pose proof (small_int_fits k Hk); unfold fits, overflows in *; lra).
  destruct (C110_arithmetic a b (IZR m) (IZR n) A B F (NO m Hm) (NO n Hn)) as (Ha & Hs & Hp & _ & Hr & _). cbv zeta in *.
  rewrite (rnd64_int m Hm), (rnd64_int n Hn) in *. repeat split.
  - intros H. rewrite <- plus_IZR in Ha. destruct (Ha (NO _ H)) as (f & E & I). rewrite (rnd64_int _ H) in I. exists (NumFloat f). split; [exact E|exact I].
  - intros H. rewrite <- minus_IZR in Hs. destruct (Hs (NO _ H)) as (f & E & I). rewrite (rnd64_int _ H) in I. exists (NumFloat f). split; [exact E|exact I].
  - intros H. rewrite <- mult_IZR in Hp. destruct (Hp (NO _ H)) as (f & E & I). rewrite (rnd64_int _ H) in I. exists (NumFloat f). split; [exact E|exact I].
  - intros N. destruct (to_double_is a _ A (NO m Hm)) as (f & Ef & Hf). destruct (to_double_is b _ B (NO n Hn)) as (g & Eg & Hg). rewrite rnd64_int in Hf, Hg by assumption.
    exists (NumFloat (ffloordiv f g)). split; [|exact (ffloordiv_int f g m n Hf Hg Hm Hn N)]. unfold ff_floordiv. rewrite (num_op_float _ _ a b f g F Ef Eg). unfold nonzero.
    rewrite (fis0_false g _ Hg) by (apply IZR_neq, N). reflexivity.
  - intros N. rewrite Hr by (apply IZR_neq, N). rewrite Zfloor_div by exact N. rewrite <- mult_IZR, <- minus_IZR.
    replace (m - n * (m / n)) with (m mod n) by (pose proof (Z.div_mod m n N); lia).
    rewrite rnd64_int; [rewrite Ztrunc_IZR; reflexivity|]. destruct (Z_lt_le_dec 0 n) as [P|P]; [pose proof (Z.mod_pos_bound m n P); lia|pose proof (Z.mod_neg_bound m n ltac:(lia)); lia].
Qed.
Print Assumptions C110_whole_numbers.
(** beyond 2^53 even adding Fixed8(0.0) changes an amount *)
Theorem C110_sum_wrong : exists a r, 0 < a < 2 ^ 63 /\ ff_add (NumInt a) (NumFloat (S754_zero false)) = Ok r /\ ff_eq r (NumInt a) = false.
Proof. exists (2 ^ 53 + 1). eexists. split; [lia|]. split; [vm_compute; reflexivity|vm_compute; reflexivity]. Qed.
Print Assumptions C110_sum_wrong.

(** ** printing and rounding: the float is taken as a number of hundred-millionths *)
Lemma F_D_is : float_is F_D (IZR D).
Proof.
  split; [reflexivity|]. split; [reflexivity|]. change F_D with (S754_finite false 6710886400000000 (-26)). rewrite SF2R_F2R. unfold F2R. cbn [Fnum Fexp cond_neg].
  change 6710886400000000%Z with (D * Zpower radix2 26)%Z. rewrite mult_IZR, IZR_Zpower by lia. rewrite Rmult_assoc, <- bpow_plus. cbn [Z.add bpow]. apply Rmult_1_r.
Qed.
Lemma to_double_D : to_double (NumInt D) = Ok F_D.
Proof. vm_compute. reflexivity. Qed.
Lemma over_D f x : float_is f x -> fits (x / IZR D).
Proof.
  intros A. pose proof (float_lt f x A) as L. unfold fits.
  assert (Q : (Rabs (x / IZR D) <= Rabs x)%R).
  { unfold Rdiv. rewrite Rabs_mult. rewrite <- (Rmult_1_r (Rabs x)) at 2. apply Rmult_le_compat_l; [apply Rabs_pos|]. assert (1 <= IZR D)%R by (apply IZR_le; unfold D; lia).
    rewrite Rabs_pos_eq by (apply Rlt_le, Rinv_0_lt_compat; lra). rewrite <- Rinv_1. apply Rinv_le; lra. }
  apply Rle_lt_trans with (2 := L). rewrite <- (float_rnd _ _ A) at 2. unfold rnd64. rewrite <- !round_NE_abs by auto with typeclass_instances. apply round_le; auto with typeclass_instances.
Qed.
Lemma quotient_D f x : float_is f x -> exists q, num_truediv (NumFloat f) (NumInt D) = Ok q /\ float_is q (rnd64 (x / IZR D)).
Proof.
  intros A. exists (fdiv f F_D). assert (N : IZR D <> 0%R) by (apply IZR_neq; discriminate). split; [|apply fdiv_is; [exact A|exact F_D_is|exact N|apply (over_D f x A)]].
  rewrite (div_float (NumFloat f) (NumInt D) f F_D); [reflexivity|left; exists f; reflexivity|reflexivity|apply to_double_D].
Qed.
Theorem C110_units : forall f x, float_is f x ->
  ff_ToInt (NumFloat f) = Ok (Ztrunc (rnd64 (x / 100000000))) /\
  ff_Floor (NumFloat f) = Ok (NumInt (Zfloor (rnd64 (x / 100000000)) * 100000000)) /\
  ff_Ceil (NumFloat f) = Ok (NumInt (Zceil (rnd64 (x / 100000000)) * 100000000)) /\
  (exists q, float_is q (rnd64 (x / 100000000)) /\ ff_ToString (NumFloat f) = Ok (float_repr q)) /\
  (exists g, ff_neg (NumFloat f) = Ok (NumFloat g) /\ float_is g (- x)).
Proof.
  intros f x A. destruct (quotient_D f x A) as (q & E & Q). repeat split.
  - unfold ff_ToInt. rewrite E. cbn [rbind]. apply (py_int_spec _ _ Q).
  - unfold ff_Floor. rewrite E. cbn [rbind]. rewrite (py_floor_spec _ _ Q). reflexivity.
  - unfold ff_Ceil. rewrite E. cbn [rbind]. rewrite (py_ceil_spec _ _ Q). reflexivity.
  - exists q. split; [exact Q|]. unfold ff_ToString. rewrite E. reflexivity.
  - assert (M : float_is f x) by exact A. destruct (C110_arithmetic (NumInt (-1)) (NumFloat f) (-1) x eq_refl A) as (_ & _ & Hp & _).
    + right. exists f. reflexivity.
    + pose proof (small_int_fits (-1) ltac:(lia)). unfold fits, overflows in *. lra.
    + pose proof (float_fits _ _ A). unfold fits, overflows in *. lra.
    + cbv zeta in Hp. rewrite (rnd64_int (-1)) in Hp by lia. rewrite (float_rnd _ _ A) in Hp. replace (-1 * x)%R with (- x)%R in Hp by ring.
      assert (R : rnd64 (- x) = Ropp x) by (rewrite rnd64_opp, (float_rnd _ _ A); reflexivity). rewrite R in Hp.
      destruct Hp as (g & Eg & Hg); [|exists g; split; [exact Eg|exact Hg]].
      unfold overflows. rewrite R, Rabs_Ropp. pose proof (float_lt _ _ A). lra.
Qed.
Print Assumptions C110_units.
(** Fixed8(x) for a price x in NEO below 10^8 is an amount of no whole unit *)
Theorem C110_not_decimal : forall f x, float_is f x -> (Rabs x <= 99999999)%R -> ff_ToInt (NumFloat f) = Ok 0.
Proof.
  intros f x A H. rewrite (proj1 (C110_units f x A)). f_equal. apply Rabs_le_inv in H.
  assert (U : (Rabs (rnd64 (x / 100000000)) < 1)%R).
  { set (c := (1 - bpow radix2 (-53))%R).
    assert (C : generic_format radix2 (FLT_exp (-1074) 53) c).
    { apply generic_format_FLT. exists (Float radix2 (2 ^ 53 - 1) (-53)); [|cbn; lia|cbn; lia]. unfold c, F2R. cbn [Fnum Fexp]. rewrite minus_IZR.
      change (2 ^ 53)%Z with (Zpower radix2 53). rewrite IZR_Zpower by lia. rewrite Rmult_minus_distr_r, <- bpow_plus, Rmult_1_l. reflexivity. }
    assert (B : (bpow radix2 (-53) < / 100000000)%R).
    { change (bpow radix2 (-53)) with (/ IZR (Zpower 2 53))%R. apply Rinv_lt_contravar; [|apply IZR_lt; reflexivity]. apply Rmult_lt_0_compat; [lra|apply IZR_lt; reflexivity]. }
    pose proof (bpow_gt_0 radix2 (-53)) as P.
    assert (Hi : (rnd64 (x / 100000000) <= c)%R) by (apply round_le_generic; auto with typeclass_instances; unfold c; lra).
    assert (Lo : (- c <= rnd64 (x / 100000000))%R) by (apply round_ge_generic; auto with typeclass_instances; [apply generic_format_opp, C|unfold c; lra]).
    apply Rabs_lt. unfold c in *. lra. }
  apply Rabs_lt_inv in U. set (w := rnd64 (x / 100000000)) in *. destruct (Rle_or_lt 0 w) as [L|L].
  - rewrite Ztrunc_floor by exact L. apply Zfloor_imp. cbn. lra.
  - rewrite Ztrunc_ceil by lra. apply Zceil_imp. cbn. lra.
Qed.
Print Assumptions C110_not_decimal.

(** Fixed8(1.5): prints as 1.5e-08; FromDecimal(1.5) is 150000000 *)
Definition one_and_half : pyfloat := S754_finite false 6755399441055744 (-52).
Example C110_example : ff_ToString (NumFloat one_and_half) = Ok (str "1.5e-08") /\ FromDecimal_float one_and_half = Ok 150000000 /\
  ff_mod (NumInt (-7)) (NumFloat one_and_half) = Ok (NumInt 0) /\ ff_truediv (NumInt (-7)) (NumFloat one_and_half) = Ok (NumInt (-4)) /\
  ff_floordiv (NumInt (-7)) (NumFloat one_and_half) = Ok (NumFloat (S754_finite true 5629499534213120 (-50))) /\
  ff_lt (NumInt 1) (NumFloat one_and_half) = true /\ ff_lt (NumFloat one_and_half) (NumInt 2) = true.
Proof. repeat split; vm_compute; reflexivity. Qed.
Example C110_example_is : float_is one_and_half (3 / 2) /\ is_float (NumFloat one_and_half) /\ num_is (NumInt (-7)) (-7).
Proof.
  split; [|split; [exists one_and_half; reflexivity|reflexivity]]. split; [reflexivity|]. split; [reflexivity|]. unfold one_and_half. rewrite SF2R_F2R. unfold F2R. cbn [Fnum Fexp cond_neg].
  change 6755399441055744%Z with (3 * Zpower radix2 51)%Z. rewrite mult_IZR, IZR_Zpower by lia. rewrite Rmult_assoc, <- bpow_plus. change (51 + -52)%Z with (-1)%Z. change (bpow radix2 (-1)) with (/ IZR 2)%R. reflexivity.
Qed.
