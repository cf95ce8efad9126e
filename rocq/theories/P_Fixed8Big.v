(** * P_Fixed8Big: property C90 *)
From Coq Require Import Reals String Lia ZifyBool ZifyNat.
From Verif Require Import M_Py M_Float M_BigInteger M_Fixed8 M_FloatRepr M_Fixed8Big S_Float S_Fixed8 S_FloatRepr S_BigInteger L_Float L_Fixed8b L_FloatRepr L_FloatRepr2 P_FloatRepr.
Open Scope Z_scope.

(** ** C90 Fixed8 amounts built from BigIntegers *)
(** With plain ints nothing changes: these are the operations of C39-C42 and C83. *)
Theorem C90_plain_amounts : forall a b,
  fb_add (mkPI TInt a) (mkPI TInt b) = rmap (mkPI TInt) (f8_add a b) /\ fb_sub (mkPI TInt a) (mkPI TInt b) = rmap (mkPI TInt) (f8_sub a b) /\
  fb_mul (mkPI TInt a) (mkPI TInt b) = rmap (mkPI TInt) (f8_mul a b) /\ fb_truediv (mkPI TInt a) (mkPI TInt b) = rmap (mkPI TInt) (f8_truediv a b) /\
  fb_floordiv (mkPI TInt a) (mkPI TInt b) = rmap (mkPI TInt) (f8_floordiv a b) /\ fb_mod (mkPI TInt a) (mkPI TInt b) = rmap (mkPI TInt) (f8_mod a b) /\
  fb_neg (mkPI TInt a) = rmap (mkPI TInt) (f8_neg a) /\ fb_Ceil (mkPI TInt a) = rmap (mkPI TInt) (Ceil a) /\ fb_Floor (mkPI TInt a) = rmap (mkPI TInt) (Floor a) /\
  fb_ToInt (mkPI TInt a) = ToInt a /\ fb_ToString (mkPI TInt a) = ToString a /\ fb_ToNeoJsonString (mkPI TInt a) = ToNeoJsonString a /\
  fb_FromDecimal (mkPI TInt a) = rmap (mkPI TInt) (FromDecimal_int a).
Proof.
  intros a b. unfold fb_ToNeoJsonString, ToNeoJsonString, fb_Ceil, fb_Floor, Ceil, Floor, fb_ToInt, ToInt, fb_ToString, ToString, fb_truediv, f8_truediv, py_truediv, fb_mod, fb_floordiv, f8_mod, f8_floordiv, big_truediv.
  cbn -[int_truediv py_int py_ceil py_floor float_repr D Z.mul Z.div Z.modulo]. repeat split;
  try (destruct (b =? 0); reflexivity);
  try (destruct (int_truediv a D) as [f|]; [|reflexivity]; cbn -[py_int py_ceil py_floor D]; first [reflexivity|destruct (py_ceil f); reflexivity|destruct (py_floor f); reflexivity]).
  destruct (int_truediv a b) as [f|]; [|reflexivity]. cbn -[py_int]. destruct (py_int f); reflexivity.
Qed.
Print Assumptions C90_plain_amounts.

(** The numbers of sums, differences, products, remainders and floor quotients, and all
    comparisons, do not depend on whether the values are BigIntegers. *)
Theorem C90_same_numbers : forall c d a b,
  (exists x, fb_add (mkPI c a) (mkPI d b) = Ok x /\ pi_val x = a + b) /\ (exists x, fb_sub (mkPI c a) (mkPI d b) = Ok x /\ pi_val x = a - b) /\
  (exists x, fb_mul (mkPI c a) (mkPI d b) = Ok x /\ pi_val x = a * b) /\ fb_neg (mkPI c a) = Ok (mkPI TInt (- a)) /\
  (b <> 0 -> exists q r, fb_floordiv (mkPI c a) (mkPI d b) = Ok (mkPI c q) /\ fb_mod (mkPI c a) (mkPI d b) = Ok (mkPI TInt r) /\
     a = q * b + r /\ Z.abs r < Z.abs b /\ (r = 0 \/ Z.sgn r = Z.sgn b)) /\
  (b = 0 -> fb_floordiv (mkPI c a) (mkPI d b) = Raise ZeroDivisionError /\ fb_mod (mkPI c a) (mkPI d b) = Raise ZeroDivisionError /\ fb_truediv (mkPI c a) (mkPI d b) = Raise ZeroDivisionError) /\
  (fb_eq (mkPI c a) (mkPI d b) = true <-> a = b) /\ (fb_lt (mkPI c a) (mkPI d b) = true <-> a < b).
Proof.
  intros c d a b. unfold fb_eq, fb_lt, fb_neg. cbn [pi_val].
  split; [destruct c; eexists; split; reflexivity|]. split; [destruct c; eexists; split; reflexivity|]. split; [destruct c; eexists; split; reflexivity|].
  split; [cbn [apply_op plain pi_cls pi_val int_op as_plain rmap]; do 2 f_equal; lia|]. split; [|split; [|lia]].
  - intros N. exists (a / b), (a mod b). unfold fb_floordiv, fb_mod, apply_op, big_floordiv, big_mod, int_op, as_plain. cbn [pi_cls pi_val].
    replace (b =? 0) with false by lia. destruct c; (split; [reflexivity|]); (split; [reflexivity|]); pose proof (Z.div_mod a b N); (split; [lia|]);
    (destruct (Z.lt_trichotomy b 0) as [L|[L|L]]; [pose proof (Z.mod_neg_bound a b L)|lia|pose proof (Z.mod_pos_bound a b L)]; split; lia).
  - intros ->. destruct c; repeat split; try reflexivity. unfold fb_truediv, py_truediv. cbn [pi_cls pi_val]. destruct a; reflexivity.
Qed.
Print Assumptions C90_same_numbers.
(** Which results hold a BigInteger again: + - * and // of a BigInteger amount on the left. *)
Theorem C90_who_stays_big : forall a b x, (fb_add a b = Ok x \/ fb_sub a b = Ok x \/ fb_mul a b = Ok x \/ fb_floordiv a b = Ok x) -> pi_cls x = pi_cls a.
Proof.
  intros [[] a] b x; unfold fb_add, fb_sub, fb_mul, fb_floordiv, apply_op, big_add, big_sub, big_mul, big_floordiv, big, as_plain, int_op; cbn [pi_cls pi_val];
  destruct (pi_val b =? 0); cbn [rmap]; intros [H|[H|[H|H]]];
  try discriminate H; match type of H with Ok ?y = _ => assert (x = y) as -> by congruence end; reflexivity.
Qed.
Print Assumptions C90_who_stays_big.

(** / of a BigInteger amount rounds towards minus infinity, exactly for every size. *)
Theorem C90_division : forall a d b, b <> 0 -> exists q r, fb_truediv (mkPI TBig a) (mkPI d b) = Ok (mkPI TInt q) /\
  a = q * b + r /\ Z.abs r < Z.abs b /\ (r = 0 \/ Z.sgn r = Z.sgn b).
Proof.
  intros a d b N. exists (a / b), (a mod b). unfold fb_truediv, py_truediv, big_truediv. cbn [pi_cls pi_val]. replace (b =? 0) with false by lia.
  split; [reflexivity|]. pose proof (Z.div_mod a b N). split; [lia|].
  destruct (Z.lt_trichotomy b 0) as [L|[L|L]]; [pose proof (Z.mod_neg_bound a b L)|lia|pose proof (Z.mod_pos_bound a b L)]; split; lia.
Qed.
Print Assumptions C90_division.

Lemma int_text_spec n : exists ds, int_text n = sign_text (n <? 0) ++ ds /\ ds <> [] /\ Forall digit_code ds /\
  decimal_number ds = Z.abs n /\ (ds = str "0" \/ hd 48 ds <> 48).
Proof.
  unfold int_text, sign_text. destruct (Z.eq_dec n 0) as [->|N].
  - exists (str "0"). repeat split; try discriminate; try (left; reflexivity). repeat constructor; unfold digit_code; cbn; lia.
  - destruct (dec_text_spec (Z.abs n) ltac:(lia)) as (F & V & _ & c & r & E & C). exists (dec_text (Z.abs n)). split.
    + destruct (n <? 0) eqn:L; [replace (Z.abs n) with (- n) by lia|replace (Z.abs n) with n by lia]; reflexivity.
    + rewrite E in *. repeat split; [discriminate|exact F|exact V|right; exact C].
Qed.
Lemma big_D v : py_truediv (mkPI TBig v) (plain D) = Ok (QInt (mkPI TBig (v / D))).
Proof. reflexivity. Qed.

(** A BigInteger amount prints as its whole units rounded down, without a point: the fraction is
    lost.  ToNeoJsonString gives the same text. *)
Theorem C90_prints_whole_units : forall v, exists q r ds s, v = q * 10 ^ 8 + r /\ 0 <= r < 10 ^ 8 /\
  fb_ToString (mkPI TBig v) = Ok s /\ fb_ToNeoJsonString (mkPI TBig v) = Ok s /\
  s = sign_text (q <? 0) ++ ds /\ ds <> [] /\ Forall digit_code ds /\ decimal_number ds = Z.abs q /\ (ds = str "0" \/ hd 48 ds <> 48).
Proof.
  intros v. exists (v / D), (v mod D). destruct (int_text_spec (v / D)) as (ds & E & Nn & F & V & H0). exists ds, (int_text (v / D)).
  change (10 ^ 8) with D. pose proof (Z.div_mod v D ltac:(unfold D; lia)) as M. pose proof (Z.mod_pos_bound v D ltac:(unfold D; lia)) as B.
  split; [lia|]. split; [exact B|].
  assert (S : fb_ToString (mkPI TBig v) = Ok (int_text (v / D))) by (unfold fb_ToString; rewrite big_D; reflexivity). split; [exact S|].
  split; [|split; [exact E|split; [exact Nn|split; [exact F|split; [exact V|exact H0]]]]].
  unfold fb_ToNeoJsonString. rewrite S. cbn [rbind]. rewrite E. set (t := sign_text _).
  assert (J : json_of (t ++ ds) = t ++ ds).
  { destruct ds as [|c [|c' ds]]; [congruence| |apply json_keep; [exact F|cbn [length]; lia]].
    unfold t, sign_text, json_of. inversion F as [|? ? Fc _]. unfold digit_code in Fc. unfold pystr_eqb.
    destruct (v / D <? 0); change (str "-") with [45]; cbn [app length Nat.sub skipn firstn];
    (destruct (list_eq_dec _ _ _) as [Q|]; [exfalso; change (str ".0") with [46; 48] in Q; congruence|reflexivity]). }
  unfold json_of in J. destruct (pystr_eqb _ _); [apply (f_equal Ok)|]; congruence.
Qed.
Print Assumptions C90_prints_whole_units.

(** ... so all amounts with the same whole units print the same. *)
Theorem C90_collisions : forall q r r', 0 <= r < 10 ^ 8 -> 0 <= r' < 10 ^ 8 ->
  fb_ToString (mkPI TBig (q * 10 ^ 8 + r)) = fb_ToString (mkPI TBig (q * 10 ^ 8 + r')).
Proof.
  intros q r r' H H'. unfold fb_ToString. rewrite !big_D. cbn [rbind q_str pi_val]. change D with (10 ^ 8).
  rewrite !Z.div_add_l, !Z.div_small by lia. reflexivity.
Qed.
Print Assumptions C90_collisions.

(** Ceil, Floor and ToInt all round down; they never fail and have no size limit.  In particular
    Ceil of an amount that is not whole is less than the amount. *)
Theorem C90_rounding : forall v, exists q r, v = q * 10 ^ 8 + r /\ 0 <= r < 10 ^ 8 /\
  fb_Ceil (mkPI TBig v) = Ok (mkPI TInt (q * 10 ^ 8)) /\ fb_Floor (mkPI TBig v) = Ok (mkPI TInt (q * 10 ^ 8)) /\ fb_ToInt (mkPI TBig v) = Ok q.
Proof.
  intros v. exists (v / D), (v mod D). change (10 ^ 8) with D.
  pose proof (Z.div_mod v D ltac:(unfold D; lia)) as M. pose proof (Z.mod_pos_bound v D ltac:(unfold D; lia)) as B.
  unfold fb_Ceil, fb_Floor, fb_ToInt. rewrite big_D. cbn [rbind q_ceil q_floor q_int pi_val]. repeat split; lia.
Qed.
Print Assumptions C90_rounding.
(** The order of the operands decides how an amount prints: x + 0 and 0 + x are equal, and so are x
    and -(-x), but with a BigInteger x the first prints without its fraction, the others like a
    plain amount. *)
Theorem C90_equal_but_different : forall v, exists a b n m, fb_add (mkPI TBig v) (mkPI TInt 0) = Ok a /\ fb_add (mkPI TInt 0) (mkPI TBig v) = Ok b /\
  fb_neg (mkPI TBig v) = Ok n /\ fb_neg n = Ok m /\ fb_eq a b = true /\ fb_eq a m = true /\
  fb_ToString a = fb_ToString (mkPI TBig v) /\ fb_ToString b = ToString v /\ fb_ToString m = ToString v.
Proof.
  intros v. exists (mkPI TBig v), (mkPI TInt v), (mkPI TInt (- v)), (mkPI TInt v).
  destruct (C90_plain_amounts v 0) as (_ & _ & _ & _ & _ & _ & _ & _ & _ & _ & S & _).
  unfold fb_eq. cbn [pi_val]. rewrite Z.eqb_refl.
  split; [unfold fb_add, apply_op, big_add, big; cbn [pi_cls pi_val]; do 2 f_equal; lia|].
  split; [unfold fb_add, apply_op, int_op, as_plain; cbn [pi_cls pi_val rmap]; do 2 f_equal; lia|].
  split; [unfold fb_neg, apply_op, int_op, as_plain, plain; cbn [pi_cls pi_val rmap]; do 2 f_equal; lia|].
  split; [unfold fb_neg, apply_op, int_op, as_plain, plain; cbn [pi_cls pi_val rmap]; do 2 f_equal; lia|].
  repeat split; exact S.
Qed.
Print Assumptions C90_equal_but_different.
(** FromDecimal of a BigInteger is an ordinary amount. *)
Theorem C90_from_decimal : forall c n, fb_FromDecimal (mkPI c n) = Ok (mkPI TInt (n * 10 ^ 8)).
Proof. intros [] n; reflexivity. Qed.
Print Assumptions C90_from_decimal.
Example C90_example : fb_ToString (mkPI TBig 199999999) = Ok (str "1") /\ fb_ToString (mkPI TInt 199999999) = Ok (str "1.99999999") /\
  fb_Ceil (mkPI TBig 199999999) = Ok (mkPI TInt 100000000) /\ fb_Ceil (mkPI TInt 199999999) = Ok (mkPI TInt 200000000) /\
  fb_ToString (mkPI TBig (-1)) = Ok (str "-1") /\ fb_ToInt (mkPI TBig (-1)) = Ok (-1) /\ fb_ToInt (mkPI TInt (-1)) = Ok 0 /\
  fb_truediv (mkPI TBig (-7)) (mkPI TInt 2) = Ok (mkPI TInt (-4)) /\ fb_truediv (mkPI TInt (-7)) (mkPI TBig 2) = Ok (mkPI TInt (-3)).
Proof. repeat split; vm_compute; reflexivity. Qed.

(** ** C38, continued: int / BigInteger *)
(** A BigInteger on the left divides with floor; an int on the left of a BigInteger gives the
    float nearest to the quotient (or OverflowError), as for two ints. *)
Theorem C38_int_over_big : forall a b, b <> 0 ->
  (exists q, py_truediv (mkPI TBig a) (mkPI TBig b) = Ok (QInt (mkPI TBig q)) /\ py_truediv (mkPI TBig a) (mkPI TInt b) = Ok (QInt (mkPI TBig q)) /\
     exists r, a = q * b + r /\ Z.abs r < Z.abs b /\ (r = 0 \/ Z.sgn r = Z.sgn b)) /\
  ((exists f, py_truediv (mkPI TInt a) (mkPI TBig b) = Ok (QFloat f) /\ float_is f (rnd64 (IZR a / IZR b))) \/
   (overflows (IZR a / IZR b) /\ py_truediv (mkPI TInt a) (mkPI TBig b) = Raise OverflowError)).
Proof.
  intros a b Hb. split.
  - exists (a / b). unfold py_truediv, big_truediv. cbn [pi_cls pi_val]. replace (b =? 0) with false by lia.
    split; [reflexivity|]. split; [reflexivity|]. exists (a mod b). pose proof (Z.div_mod a b Hb).
    pose proof (Z.mod_pos_bound a b). pose proof (Z.mod_neg_bound a b). split; [lia|]. split; [lia|].
    destruct (Z.eq_dec (a mod b) 0); [left; assumption|right]. destruct (Z.lt_trichotomy b 0) as [|[|]]; lia.
  - unfold py_truediv. cbn [pi_cls pi_val]. destruct (int_truediv_spec a b Hb) as [(f & E & F & _)|[O E]]; rewrite E; cbn [rmap].
    + left. exists f. split; [reflexivity|exact F].
    + right. split; [exact O|reflexivity].
Qed.
Print Assumptions C38_int_over_big.
Theorem C38_int_over_zero : forall c d a, py_truediv (mkPI c a) (mkPI d 0) = Raise ZeroDivisionError.
Proof. intros [] d a; [reflexivity|]. unfold py_truediv. cbn [pi_cls pi_val]. rewrite int_truediv_zero. reflexivity. Qed.
Print Assumptions C38_int_over_zero.
