(** * P_BigMore: BigIntegers next to floats and in sums (C122), and made of other values (C123) *)
From Coq Require Import Reals Lia Lra String ZifyBool.
From Flocq Require Import Core.
From Flocq Require Import BinarySingleNaN.
From Coq Require Import Floats.SpecFloat.
From Verif Require Import M_Py M_Float M_BigInteger M_Fixed8 M_Fixed8Big M_Fixed8Float M_Parse M_BigMore S_Float S_Fixed8 S_Fixed8Float S_FloatRepr S_Parse S_BigMore.
From Verif Require Import L_Float L_Fixed8Float L_Fixed8b L_Bytes L_Parse P_Fixed8Big P_Fixed8Float P_Parse.
Open Scope Z_scope.

(** ** C122 *)
Lemma value_is a x : bnum_is a x -> num_is (number_of a) x.
Proof. destruct a; exact (fun H => H). Qed.
(** a BigInteger on the left of a float: TypeError, whatever the operator and the float, also nan *)
Theorem C122_big_left : forall o a f, big_arith o (BInt (mkPI TBig a)) (BFloat f) = Raise TypeError.
Proof. reflexivity. Qed.
Print Assumptions C122_big_left.
(** a float on the left (of an int of either class), or a plain int on the left: the result is a float, the
    nearest one to the exact result on the operands as floats *)
Lemma float_case o a b f g : is_bfloat a \/ is_bfloat b -> (forall z, a <> BInt (mkPI TBig z)) -> to_double (number_of a) = Ok f -> to_double (number_of b) = Ok g ->
  big_arith o a b = rmap BFloat (float_arith o f g).
Proof.
  intros F N A B. destruct a as [[[|] x]|x]; [destruct (N x eq_refl)| |].
  - destruct b as [y|y]; [destruct F as [[? Q]|[? Q]]; discriminate|]. unfold big_arith. rewrite A. cbn [rbind]. rewrite B. reflexivity.
  - unfold big_arith. rewrite A. cbn [rbind]. rewrite B. reflexivity.
Qed.
Theorem C122_float_arithmetic : forall a b x y, bnum_is a x -> bnum_is b y -> is_bfloat a \/ is_bfloat b -> (forall z, a <> BInt (mkPI TBig z)) ->
  ~ overflows x -> ~ overflows y -> let u := rnd64 x in let v := rnd64 y in
  (~ overflows (u + v) -> gives (big_arith AAdd a b) (u + v)) /\
  (~ overflows (u - v) -> gives (big_arith ASub a b) (u - v)) /\
  (~ overflows (u * v) -> gives (big_arith AMul a b) (u * v)) /\
  (v <> 0%R -> ~ overflows (u / v) -> gives (big_arith ATrueDiv a b) (u / v)) /\
  (v <> 0%R -> gives (big_arith AMod a b) (u - v * IZR (Zfloor (u / v)))) /\
  (v <> 0%R -> (Rabs (u / v) <= IZR (2 ^ 48))%R -> exists f, big_arith AFloorDiv a b = Ok (BFloat f) /\ float_is f (IZR (Zfloor (u / v)))) /\
  (v = 0%R -> big_arith ATrueDiv a b = Raise ZeroDivisionError /\ big_arith AFloorDiv a b = Raise ZeroDivisionError /\ big_arith AMod a b = Raise ZeroDivisionError).
Proof.
  intros a b x y A B F NB Ox Oy u v. destruct (to_double_is _ x (value_is a x A) Ox) as (f & Ef & Hf). destruct (to_double_is _ y (value_is b y B) Oy) as (g & Eg & Hg).
  fold u in Hf. fold v in Hg. pose proof (fun o => float_case o a b f g F NB Ef Eg) as E. repeat split.
  - intros O. exists (fadd f g). rewrite E. split; [reflexivity|]. apply fadd_is; [exact Hf|exact Hg|apply not_over, O].
  - intros O. exists (fsub f g). rewrite E. split; [reflexivity|]. apply fsub_is; [exact Hf|exact Hg|apply not_over, O].
  - intros O. exists (fmul f g). rewrite E. split; [reflexivity|]. apply fmul_is; [exact Hf|exact Hg|apply not_over, O].
  - intros N O. exists (fdiv f g). rewrite E. cbn [float_arith]. unfold nonzero. rewrite (fis0_false g v Hg N). split; [reflexivity|]. apply fdiv_is; [exact Hf|exact Hg|exact N|apply not_over, O].
  - intros N. exists (frem f g). rewrite E. cbn [float_arith]. unfold nonzero. rewrite (fis0_false g v Hg N). split; [reflexivity|]. exact (frem_is f g u v Hf Hg N).
  - intros N Q. exists (ffloordiv f g). rewrite E. cbn [float_arith]. unfold nonzero. rewrite (fis0_false g v Hg N). split; [reflexivity|]. exact (ffloordiv_is f g u v Hf Hg N Q).
  - rewrite E. cbn [float_arith]. unfold nonzero. rewrite (proj2 (fis0_is g v Hg) H). reflexivity.
  - rewrite E. cbn [float_arith]. unfold nonzero. rewrite (proj2 (fis0_is g v Hg) H). reflexivity.
  - rewrite E. cbn [float_arith]. unfold nonzero. rewrite (proj2 (fis0_is g v Hg) H). reflexivity.
Qed.
Print Assumptions C122_float_arithmetic.
(** an int too large for a float: OverflowError, also if the float is a zero or nan *)
Theorem C122_too_large : forall o f n, overflows (IZR (pi_val n)) ->
  big_arith o (BFloat f) (BInt n) = Raise OverflowError /\ big_divmod (BFloat f) (BInt n) = Raise OverflowError /\ big_divmod (BInt n) (BFloat f) = Raise OverflowError.
Proof.
  intros o f n O. unfold big_arith, big_divmod. cbn [number_of to_double rbind]. rewrite (float_of_int_overflow _ O). repeat split; reflexivity.
Qed.
Print Assumptions C122_too_large.
(** divmod accepts a BigInteger on the left of a float, although // and % do not: two floats, the same as for
    the plain int of that value *)
Theorem C122_divmod : forall a b x y, bnum_is a x -> bnum_is b y -> is_bfloat a \/ is_bfloat b -> ~ overflows x -> ~ overflows y ->
  let u := rnd64 x in let v := rnd64 y in
  (v = 0%R -> big_divmod a b = Raise ZeroDivisionError) /\
  (v <> 0%R -> exists q r, big_divmod a b = Ok (BFloat q, BFloat r) /\ float_is r (rnd64 (u - v * IZR (Zfloor (u / v)))) /\
     ((Rabs (u / v) <= IZR (2 ^ 48))%R -> float_is q (IZR (Zfloor (u / v))))).
Proof.
  intros a b x y A B F Ox Oy u v. destruct (to_double_is _ x (value_is a x A) Ox) as (f & Ef & Hf). destruct (to_double_is _ y (value_is b y B) Oy) as (g & Eg & Hg).
  fold u in Hf. fold v in Hg.
  assert (E : big_divmod a b = if fis0 g then Raise ZeroDivisionError else Ok (BFloat (ffloordiv f g), BFloat (frem f g))).
  { assert (E : big_divmod a b = (do x <- to_double (number_of a); do y <- to_double (number_of b); if fis0 y then Raise ZeroDivisionError else Ok (BFloat (ffloordiv x y), BFloat (frem x y))))
      by (destruct F as [[h ->]|[h ->]]; [|destruct a]; reflexivity).
    rewrite E, Ef. cbn [rbind]. rewrite Eg. reflexivity. }
  split.
  - intros H. rewrite E, (proj2 (fis0_is g v Hg) H). reflexivity.
  - intros N. exists (ffloordiv f g), (frem f g). rewrite E, (fis0_false g v Hg N). split; [reflexivity|]. split; [exact (frem_is f g u v Hf Hg N)|]. intros Q. exact (ffloordiv_is f g u v Hf Hg N Q).
Qed.
Print Assumptions C122_divmod.
(** comparisons are exact, in both directions, and do not depend on the class *)
Theorem C122_comparisons : forall a b x y, bnum_is a x -> bnum_is b y ->
  (big_eq a b = true <-> x = y) /\ (big_lt a b = true <-> (x < y)%R) /\ (big_gt a b = true <-> (x > y)%R) /\
  (big_ge a b = true <-> (x >= y)%R) /\ (big_le a b = true <-> (x <= y)%R).
Proof. intros a b x y A B. exact (C110_comparisons _ _ x y (value_is a x A) (value_is b y B)). Qed.
Print Assumptions C122_comparisons.
Theorem C122_nan : forall a, let nan := BFloat S754_nan in
  big_eq a nan = false /\ big_lt a nan = false /\ big_gt a nan = false /\ big_ge a nan = false /\ big_le a nan = false /\
  big_eq nan a = false /\ big_lt nan a = false /\ big_gt nan a = false /\ big_ge nan a = false /\ big_le nan a = false.
Proof. intros a. exact (C110_nan (number_of a)). Qed.
Print Assumptions C122_nan.
Theorem C122_infinity : forall n : pyint,
  big_lt (BInt n) (BFloat (S754_infinity false)) = true /\ big_gt (BInt n) (BFloat (S754_infinity true)) = true /\
  big_lt (BFloat (S754_infinity true)) (BInt n) = true /\ big_gt (BFloat (S754_infinity false)) (BInt n) = true /\
  (forall s : bool, big_eq (BInt n) (BFloat (S754_infinity s)) = false /\ big_eq (BFloat (S754_infinity s)) (BInt n) = false).
Proof. intros n. destruct (C110_infinity (NumInt (pi_val n)) (IZR (pi_val n)) eq_refl) as (A & B & C & D0 & E & _). repeat split; try assumption; apply E. Qed.
Print Assumptions C122_infinity.
(** a float that is equal to a BigInteger need not be its float(), and arithmetic may change what comparisons see *)
Theorem C122_not_the_same : exists n f, big_arith AAdd (BFloat (S754_zero false)) (BInt (mkPI TBig n)) = Ok (BFloat f) /\ big_eq (BFloat f) (BInt (mkPI TBig n)) = false.
Proof. exists (2 ^ 53 + 1). eexists. split; vm_compute; reflexivity. Qed.
Print Assumptions C122_not_the_same.
(** ** with a negative exponent is a float, or an error, for either class *)
Theorem C122_negative_exponent : forall libm a b, pi_val b < 0 ->
  (pi_val a = 0 -> ~ overflows (IZR (pi_val b)) -> big_pow libm a b = Raise ZeroDivisionError) /\
  (pi_val a <> 0 -> ~ overflows (IZR (pi_val a)) -> ~ overflows (IZR (pi_val b)) ->
     exists x y, float_is x (rnd64 (IZR (pi_val a))) /\ float_is y (rnd64 (IZR (pi_val b))) /\ big_pow libm a b = Ok (BFloat (libm x y))) /\
  (overflows (IZR (pi_val a)) \/ overflows (IZR (pi_val b)) -> big_pow libm a b = Raise OverflowError).
Proof.
  intros libm a b H. destruct (C110_negative_exponent libm (pi_val a) (pi_val b) H) as (P & Q & R). unfold big_pow. rewrite (proj2 (Z.ltb_lt (pi_val b) 0)) by exact H.
  split; [|split].
  - intros A B. rewrite (P A B). reflexivity.
  - intros A B C. destruct (Q A B C) as (x & y & X & Y & E). exists x, y. rewrite E. repeat split; try reflexivity; apply X || apply Y.
  - intros O. rewrite (R O). reflexivity.
Qed.
Print Assumptions C122_negative_exponent.
Theorem C122_power : forall libm a b, 0 <= pi_val b -> big_pow libm a b = Ok (BInt (mkPI TInt (pi_val a ^ pi_val b))).
Proof. intros libm [c a] [d b] H. cbn [pi_val] in *. unfold big_pow. cbn [pi_val]. rewrite (proj2 (Z.ltb_ge b 0)) by exact H. destruct c; reflexivity. Qed.
Print Assumptions C122_power.
(** sum(l) of BigIntegers is a plain int (it starts with 0), the total; sum(l, ZERO) is a BigInteger *)
Theorem C122_sum : forall l start, py_sum start l = Ok (mkPI (pi_cls start) (fold_right (fun n t => pi_val n + t) (pi_val start) l)).
Proof.
  induction l as [|n l IH]; intros [c z]; cbn [py_sum fold_right pi_cls pi_val]; [reflexivity|].
  assert (E : apply_op OAdd (mkPI c z) n = Ok (mkPI c (z + pi_val n))) by (destruct c; reflexivity). rewrite E. cbn [rbind]. rewrite IH. cbn [pi_cls pi_val]. do 2 f_equal.
  clear. induction l as [|m l IH]; cbn [fold_right]; lia.
Qed.
Print Assumptions C122_sum.
(** so dividing such a sum by an int is float division, although every summand divides with floor *)
Theorem C122_sum_divides_as_int : forall l b t, py_sum (plain 0) l = Ok t -> b <> 0 -> ~ overflows (IZR (pi_val t) / IZR b) ->
  exists f, py_truediv t (plain b) = Ok (QFloat f) /\ float_is f (rnd64 (IZR (pi_val t) / IZR b)).
Proof.
  intros l b t E N O. rewrite C122_sum in E. assert (t = mkPI TInt (fold_right (fun n t => pi_val n + t) 0 l)) as -> by (cbn [plain pi_cls pi_val] in E; congruence). cbn [pi_val] in *.
  destruct (proj2 (C38_int_over_big (fold_right (fun n t => pi_val n + t) 0 l) b N)) as [H|[H _]]; [exact H|contradiction].
Qed.
Print Assumptions C122_sum_divides_as_int.

Example C122_example :
  big_arith AAdd (BFloat one_and_half) (BInt (mkPI TBig 3)) = Ok (BFloat (S754_finite false 5066549580791808 (-50))) /\
  big_arith AAdd (BInt (mkPI TInt 3)) (BFloat one_and_half) = Ok (BFloat (S754_finite false 5066549580791808 (-50))) /\
  big_arith AAdd (BInt (mkPI TBig 3)) (BFloat one_and_half) = Raise TypeError /\
  big_divmod (BInt (mkPI TBig (-7))) (BFloat one_and_half) = Ok (BFloat (S754_finite true 5629499534213120 (-50)), BFloat (S754_finite false 4503599627370496 (-53))) /\
  big_lt (BInt (mkPI TBig 1)) (BFloat one_and_half) = true /\ big_eq (BInt (mkPI TBig 3)) (BFloat (S754_finite false 6755399441055744 (-51))) = true /\
  py_sum (plain 0) [mkPI TBig 3; mkPI TBig 4] = Ok (mkPI TInt 7) /\ py_sum (mkPI TBig 0) [mkPI TBig 3; mkPI TInt 4] = Ok (mkPI TBig 7).
Proof. repeat split; vm_compute; reflexivity. Qed.
Example C122_example_is : bnum_is (BFloat one_and_half) (3 / 2) /\ is_bfloat (BFloat one_and_half) /\ bnum_is (BInt (mkPI TBig 3)) 3 /\ overflows (IZR (2 ^ 1024)).
Proof.
  split; [exact (proj1 C110_example_is)|]. split; [exists one_and_half; reflexivity|]. split; [reflexivity|].
  unfold overflows. change (2 ^ 1024)%Z with (Zpower radix2 1024). rewrite IZR_Zpower by lia. unfold rnd64.
  rewrite round_generic; [rewrite Rabs_pos_eq by apply bpow_ge_0; apply Rle_refl|auto with typeclass_instances|]. apply generic_format_bpow. unfold FLT_exp. lia.
Qed.

(** ** C123 *)
Lemma int_literal_float t z : int_literal t z -> exists v, float_text t v.
Proof.
  intros (b1 & sg & neg & a & ds & b2 & -> & B1 & B2 & S1 & A & _). eexists. change (a ++ b2) with (a ++ ([] : pystr) ++ b2).
  exact (ft_number b1 sg neg a ds [] [] 0 b2 B1 B2 S1 (mt_whole a ds A) ep_none).
Qed.
Lemma int_of_text_iff s z : int_of_text s = Some z <-> int_literal s z.
Proof.
  unfold int_of_text. split.
  - destruct (drop_underscores false (strip s)) as [t|] eqn:E; [|discriminate]. destruct (take_sign t) as [neg s1] eqn:T1. destruct (take_digits s1) as [d r] eqn:T2.
    destruct d as [|c d]; [discriminate|]. destruct r as [|]; [|discriminate]. intros H. destruct (take_sign_inv _ _ _ T1) as (sg & -> & S1). destruct (take_digits_split _ _ _ T2) as [-> Fd]. rewrite app_nil_r in E.
    assert (G : exists a, strip s = sg ++ a /\ digit_part a (c :: d)).
    { assert (K : forall t', drop_underscores false t' = Some (c :: d) -> digit_part t' (c :: d)).
      { intros t' Q. rewrite <- (app_nil_r (c :: d)) in Q. destruct (inv_digits (c :: d) ltac:(discriminate) t' [] Fd I Q) as (a & t2 & -> & A & R). rewrite (inv_word [] (Forall_nil _) t2 R), app_nil_r. exact A. }
      destruct S1; cbn [app] in E.
      - exists (strip s). split; [reflexivity|apply K, E].
      - change (str "+" ++ c :: d) with (43 :: c :: d) in E. destruct (inv_char _ _ _ E ltac:(unfold digit_code; lia)) as (t' & -> & E'). exists t'. split; [reflexivity|apply K, E'].
      - change (str "-" ++ c :: d) with (45 :: c :: d) in E. destruct (inv_char _ _ _ E ltac:(unfold digit_code; lia)) as (t' & -> & E'). exists t'. split; [reflexivity|apply K, E']. }
    destruct G as (a & G & A). destruct (strip_inv s) as (b1 & b2 & Es & B1 & B2). exists b1, sg, neg, a, (c :: d), b2. rewrite Es, G at 1. rewrite <- app_assoc.
    split; [reflexivity|]. split; [exact B1|]. split; [exact B2|]. split; [exact S1|]. split; [exact A|]. rewrite cond_neg_mul in H. change (dec_value (c :: d)) with (decimal_number (c :: d)) in H. congruence.
  - intros (b1 & sg & neg & a & ds & b2 & -> & B1 & B2 & S1 & A & ->). destruct (digit_part_digits _ _ A) as (F & N & SA & NA & _).
    replace (b1 ++ sg ++ a ++ b2) with (b1 ++ (sg ++ a) ++ b2) by (rewrite <- !app_assoc; reflexivity).
    rewrite strip_blanks; [|exact B1|exact B2|apply Forall_app; split; [exact (sign_solid _ _ S1)|exact SA]|destruct sg; [exact NA|discriminate]].
    rewrite (drops_final (sg ++ a) (sg ++ ds)) by (apply drops_app; [exact (drops_sign _ _ S1)|apply drops_digit_part, A|exact (not_under_digit_part _ _ A)]).
    rewrite (take_sign_sign sg neg ds S1) by (destruct F as [|x l Q]; [exact I|unfold digit_code in Q; lia]).
    rewrite <- (app_nil_r ds) at 1. rewrite take_digits_app by (assumption || exact I). destruct ds as [|c ds]; [congruence|]. rewrite cond_neg_mul. reflexivity.
Qed.
(** BigInteger(text): exactly the texts of the grammar, after Unicode's digits and blanks are read as ASCII ones *)
Theorem C123_text : forall U s, unicode_ok U ->
  (forall r, big_new U (AText s) = Ok r <-> exists t z, Forall2 (reads_char U) s t /\ int_literal t z /\ r = mkPI TBig z) /\
  (big_new U (AText s) = Raise ValueError <-> ~ exists t z, Forall2 (reads_char U) s t /\ int_literal t z).
Proof.
  intros U s O. change (big_new U (AText s)) with (rmap (mkPI TBig) (or_raise ValueError (int_of_text (to_ascii U s)))). destruct (int_of_text (to_ascii U s)) as [z|] eqn:E; cbn [or_raise rmap].
  - apply int_of_text_iff in E. destruct (int_literal_float _ _ E) as (v & T). pose proof (ascii_reads U s v T) as R. split.
    + intros r. split.
      * intros H. exists (to_ascii U s), z. split; [exact R|]. split; [exact E|]. congruence.
      * intros (t & w & Rt & L & ->). rewrite (reads_to_ascii U s t O Rt) in E. apply int_of_text_iff in E. apply int_of_text_iff in L. do 2 f_equal; congruence.
    + split; [discriminate|]. intros N. destruct N. exists (to_ascii U s), z. split; assumption.
  - assert (N : ~ exists t z, Forall2 (reads_char U) s t /\ int_literal t z).
    { intros (t & z & Rt & L). rewrite (reads_to_ascii U s t O Rt) in E. apply int_of_text_iff in L. congruence. }
    split; [|split; [intros _; exact N|reflexivity]]. intros r. split; [discriminate|]. intros (t & z & Rt & L & _). destruct N. exists t, z. split; assumption.
Qed.
Print Assumptions C123_text.
Theorem C123_bytes : forall U b,
  (forall r, big_new U (ABytes b) = Ok r <-> exists z, int_literal (map b2z b) z /\ r = mkPI TBig z) /\
  (big_new U (ABytes b) = Raise ValueError <-> ~ exists z, int_literal (map b2z b) z).
Proof.
  intros U b. change (big_new U (ABytes b)) with (rmap (mkPI TBig) (or_raise ValueError (int_of_text (map b2z b)))). destruct (int_of_text (map b2z b)) as [z|] eqn:E; cbn [or_raise rmap].
  - pose proof (proj1 (int_of_text_iff _ _) E) as L. split.
    + intros r. split; [intros H; exists z; split; [exact L|congruence]|]. intros (w & K & ->). apply int_of_text_iff in K. do 2 f_equal; congruence.
    + split; [discriminate|]. intros N. destruct N. exists z. exact L.
  - assert (N : ~ exists z, int_literal (map b2z b) z) by (intros (z & L); apply int_of_text_iff in L; congruence).
    split; [|split; [intros _; exact N|reflexivity]]. intros r. split; [discriminate|]. intros (z & L & _). destruct N. exists z. exact L.
Qed.
Print Assumptions C123_bytes.
(** a text has one value at most *)
Theorem C123_one_value : forall t z w, int_literal t z -> int_literal t w -> z = w.
Proof. intros t z w A B. apply int_of_text_iff in A. apply int_of_text_iff in B. congruence. Qed.
Print Assumptions C123_one_value.
(** str() and back: for every BigInteger, also through the ASCII bytes *)
Lemma plain_digit_part ds : ds <> [] -> Forall digit_code ds -> digit_part ds ds.
Proof.
  intros N F. induction F as [|c l C F IH]; [congruence|]. destruct l as [|d l]; [constructor; exact C|]. apply dp_next; [exact C|apply IH; discriminate].
Qed.
Lemma int_text_literal n : int_literal (int_text n) n.
Proof.
  destruct (int_text_spec n) as (ds & E & N & F & V & _). exists [], (sign_text (n <? 0)), (n <? 0), ds, ds, []. rewrite E, app_nil_r. split; [reflexivity|].
  split; [constructor|]. split; [constructor|]. split; [unfold sign_text; destruct (n <? 0); constructor|]. split; [apply plain_digit_part; assumption|]. rewrite V. destruct (n <? 0) eqn:L; lia.
Qed.
Lemma int_text_ascii U n : Forall2 (reads_char U) (int_text n) (int_text n) /\ exists b, map b2z b = int_text n.
Proof.
  assert (A : Forall (fun c => 0 <= c < 127) (int_text n)).
  { destruct (int_text_spec n) as (ds & E & _ & F & _). rewrite E. apply Forall_app. split; [unfold sign_text; destruct (n <? 0); repeat constructor; cbn; lia|].
    revert F. apply Forall_impl. intros c C. unfold digit_code in C. lia. }
  split.
  - induction A as [|c l C A IH]; constructor; [left; split; [lia|reflexivity]|exact IH].
  - exists (map z2b (int_text n)). rewrite map_map. rewrite <- (map_id (int_text n)) at 2. apply map_ext_in. intros c I. apply (proj1 (Forall_forall _ _) A) in I. rewrite b2z_z2b. apply Z.mod_small. lia.
Qed.
Theorem C123_round_trip : forall U x, unicode_ok U -> big_new U (AText (big_str x)) = Ok (mkPI TBig (pi_val x)) /\
  exists b, map b2z b = big_str x /\ big_new U (ABytes b) = Ok (mkPI TBig (pi_val x)).
Proof.
  intros U x O. unfold big_str. destruct (int_text_ascii U (pi_val x)) as (R & b & E). split.
  - apply (C123_text U _ O). exists (int_text (pi_val x)), (pi_val x). split; [exact R|]. split; [apply int_text_literal|reflexivity].
  - exists b. split; [exact E|]. apply (C123_bytes U b). exists (pi_val x). rewrite E. split; [apply int_text_literal|reflexivity].
Qed.
Print Assumptions C123_round_trip.
(** numbers: the fraction of a float or a Decimal is cut off (towards zero); nan is a ValueError and an
    infinity an OverflowError; ints, bools and BigIntegers give their value *)
Theorem C123_float : forall U f x, float_is f x -> big_new U (AFloat f) = Ok (mkPI TBig (Ztrunc x)).
Proof. intros U f x H. unfold big_new. rewrite (py_int_spec _ _ H). reflexivity. Qed.
Print Assumptions C123_float.
Lemma ten_pos e : 0 <= e -> 0 < 10 ^ e.
Proof. intros H. apply Z.pow_pos_nonneg; lia. Qed.
Theorem C123_decimal : forall U (neg : bool) c e, 0 <= c -> big_new U (ADecimal (mkDec neg c e)) = Ok (mkPI TBig (Ztrunc ((if neg then -1 else 1) * IZR c * powerRZ 10 e))).
Proof.
  intros U neg c e C. unfold big_new, rmap. do 2 f_equal. unfold int_of_dec. cbn [d_sign d_coef d_exp]. rewrite cond_neg_mul. rewrite <- ten_power.
  destruct (Z.leb_spec 0 e) as [E|E].
  - rewrite (Z.max_r 0 e), (Z.max_l 0 (- e)) by lia. change (10 ^ 0) with 1. unfold Rdiv. rewrite Rinv_1, Rmult_1_r.
    replace ((if neg then -1 else 1) * IZR c * IZR (10 ^ e))%R with (IZR ((if neg then -1 else 1) * (c * 10 ^ e))); [rewrite Ztrunc_IZR; reflexivity|].
    rewrite !mult_IZR. destruct neg; ring.
  - rewrite (Z.max_l 0 e), (Z.max_r 0 (- e)) by lia. change (10 ^ 0) with 1. pose proof (ten_pos (- e) ltac:(lia)) as P.
    replace ((if neg then -1 else 1) * IZR c * (1 / IZR (10 ^ (- e))))%R with (IZR ((if neg then -1 else 1) * c) / IZR (10 ^ (- e)))%R.
    + rewrite Ztrunc_quot by lia. destruct neg.
      * replace (-1 * c) with (- c) by lia. rewrite Z.quot_opp_l by lia. rewrite Z.quot_div_nonneg by lia. lia.
      * rewrite !Z.mul_1_l. rewrite Z.quot_div_nonneg by lia. reflexivity.
    + rewrite mult_IZR. unfold Rdiv. destruct neg; ring.
Qed.
Print Assumptions C123_decimal.
Theorem C123_others : forall U z,
  big_new U (AInt z) = Ok (mkPI TBig z) /\ big_new U (AFloat S754_nan) = Raise ValueError /\
  (forall s, big_new U (AFloat (S754_infinity s)) = Raise OverflowError /\ big_new U (ADecInf s) = Raise OverflowError /\ big_new U (ADecNaN s) = Raise ValueError).
Proof. intros U z. repeat split. Qed.
Print Assumptions C123_others.
(** what comes out is always a BigInteger *)
Theorem C123_class : forall U v r, big_new U v = Ok r -> pi_cls r = TBig.
Proof. intros U v r. unfold big_new. match goal with |- rmap _ ?X = _ -> _ => destruct X as [z|] end; [|discriminate]. intros E. assert (r = mkPI TBig z) as -> by (cbn in E; congruence). reflexivity. Qed.
Print Assumptions C123_class.

Definition ascii_only : unicode := mkUnicode (fun _ => false) (fun _ => None).
(** a table with the Arabic-Indic digits and the no-break space *)
Definition some_unicode : unicode := mkUnicode (fun c => c =? 160) (fun c => if (1632 <=? c) && (c <=? 1641) then Some (c - 1632) else None).
Example C123_example : let U := some_unicode in
  big_new U (AText (str " -1_000 ")) = Ok (mkPI TBig (-1000)) /\ big_new U (AText (str "0012")) = Ok (mkPI TBig 12) /\
  big_new U (AText [160; 1633; 1634]) = Ok (mkPI TBig 12) /\ big_new ascii_only (AText [160; 1633; 1634]) = Raise ValueError /\
  big_new U (AText (str "1.5")) = Raise ValueError /\ big_new U (AText (str "1__0")) = Raise ValueError /\ big_new U (AText (str "0x10")) = Raise ValueError /\
  big_new U (AText (str "")) = Raise ValueError /\ big_new U (AText (str "- 1")) = Raise ValueError /\ big_new U (AText (str "1e3")) = Raise ValueError /\
  big_new U (AFloat (S754_finite true 6755399441055744 (-52))) = Ok (mkPI TBig (-1)) /\ big_new U (ADecimal (mkDec true 129 (-1))) = Ok (mkPI TBig (-12)) /\
  big_str (mkPI TBig (-1000)) = str "-1000".
Proof. repeat split; vm_compute; reflexivity. Qed.
Example C123_example_unicode : unicode_ok some_unicode /\ unicode_ok ascii_only.
Proof.
  split; (split; [|split; reflexivity]); cbn; intros c d E; [|discriminate]. destruct ((1632 <=? c) && (c <=? 1641)) eqn:Q; [|discriminate]. assert (d = c - 1632) by congruence. lia.
Qed.
