(** * P_BigInteger: properties C35-C38 *)
From Coq Require Import Lia ZifyBool ZifyNat.
From Verif Require Import M_Py M_BigInteger S_IO S_BigInteger L_Bytes L_IO L_BigInteger.

(** ** C35 BigInteger signed bytes round-trip *)
Theorem C35_signed_roundtrip : forall x, exists d, ToByteArray x true = Ok d /\ FromBytes d true = mkPI TBig x.
Proof. intros x. destruct (ToByteArray_signed x) as (d & H & _ & T & _). exists d. split; [exact H|apply twos_from, T]. Qed.
Print Assumptions C35_signed_roundtrip.
(** the bytes are two's complement, and FromBytes(signed=True) reads every two's complement encoding *)
Theorem C35_twos_complement : forall x d, ToByteArray x true = Ok d -> twos_complement d x.
Proof. intros x d H. destruct (ToByteArray_signed x) as (d' & H' & _ & T & _). assert (d = d') as -> by congruence. exact T. Qed.
Print Assumptions C35_twos_complement.
Theorem C35_reads_any_encoding : forall d x, twos_complement d x -> FromBytes d true = mkPI TBig x.
Proof. exact twos_from. Qed.
Print Assumptions C35_reads_any_encoding.
Example C35_example : ToByteArray (-256) true = Ok [x00; xff; xff] /\ FromBytes [x00; xff; xff] true = mkPI TBig (-256) /\
  ToByteArray 128 true = Ok [x80; x00] /\ FromBytes [x80; x00] true = mkPI TBig 128 /\ twos_complement [x80; x00] 128.
Proof. repeat split; try reflexivity; try discriminate. left. reflexivity. Qed.

(** ** C36 BigInteger default decoding is unsigned *)
Theorem C36_default_decoding : forall x d, ToByteArray x true = Ok d ->
  FromBytes d false = mkPI TBig (if x <? 0 then x + 256 ^ zlen d else x).
Proof. intros x d H. apply twos_from_unsigned. apply C35_twos_complement, H. Qed.
Print Assumptions C36_default_decoding.
Theorem C36_default_roundtrip_iff : forall x d, ToByteArray x true = Ok d ->
  (FromBytes d false = mkPI TBig x <-> 0 <= x).
Proof.
  intros x d H. rewrite (C36_default_decoding x d H). assert (0 < 256 ^ zlen d) by (apply Z.pow_pos_nonneg; [lia|apply zlen_nonneg]).
  split.
  - intros E. assert (K : (if x <? 0 then x + 256 ^ zlen d else x) = x) by congruence. destruct (x <? 0) eqn:L; lia.
  - intros L. replace (x <? 0) with false by lia. reflexivity.
Qed.
Print Assumptions C36_default_roundtrip_iff.
Theorem C36_unsigned : forall x, 0 <= x -> exists d, ToByteArray x false = Ok d /\ num LE d = x /\
  FromBytes d false = mkPI TBig x /\ (x = 0 /\ d = [x00] \/ digits_256 x (zlen d)).
Proof. exact unsigned_spec. Qed.
Print Assumptions C36_unsigned.
(** for a negative number signed=False is ignored: the signed encoding comes back *)
Theorem C36_negative_unsigned : forall x, x < 0 -> exists d, ToByteArray x false = Ok d /\ ToByteArray x true = Ok d /\
  twos_complement d x /\ FromBytes d false <> mkPI TBig x.
Proof.
  intros x Hx. assert (E : ToByteArray x false = ToByteArray x true).
  { unfold ToByteArray. replace (x =? 0) with false by lia. replace (x <? 0) with true by lia. reflexivity. }
  destruct (C35_signed_roundtrip x) as (d & Hd & _). exists d. rewrite E, Hd. repeat split.
  - apply (C35_twos_complement _ _ Hd).
  - apply (C35_twos_complement _ _ Hd).
  - apply (C35_twos_complement _ _ Hd).
  - apply (C35_twos_complement _ _ Hd).
  - intros H. apply (C36_default_roundtrip_iff _ _ Hd) in H. lia.
Qed.
Print Assumptions C36_negative_unsigned.
Example C36_example : ToByteArray (-1) true = Ok [xff; xff] /\ FromBytes [xff; xff] false = mkPI TBig 65535 /\
  ToByteArray 255 false = Ok [xff] /\ ToByteArray 255 true = Ok [xff; x00].
Proof. repeat split; reflexivity. Qed.

(** ** C37 Length of BigInteger.ToByteArray *)
Theorem C37_nonneg_shortest : forall x d e, 0 <= x -> ToByteArray x true = Ok d -> twos_complement e x -> zlen d <= zlen e.
Proof. exact minimal_nonneg. Qed.
Print Assumptions C37_nonneg_shortest.
Theorem C37_negative_length : forall x d k, x < 0 -> digits_256 (- x) k -> ToByteArray x true = Ok d -> zlen d = 1 + k.
Proof. exact neg_length. Qed.
Print Assumptions C37_negative_length.
(** k bytes would do iff -x <= 2^(8k-1), and fewer never do *)
Theorem C37_negative_one_too_many_iff : forall x k, x < 0 -> digits_256 (- x) k ->
  ((exists e, twos_complement e x /\ zlen e = k) <-> - x <= 2 ^ (8 * k - 1)) /\
  (forall e, twos_complement e x -> k <= zlen e).
Proof. exact neg_shorter. Qed.
Print Assumptions C37_negative_one_too_many_iff.
Example C37_example : digits_256 128 1 /\ ToByteArray (-128) true = Ok [x80; xff] /\ twos_complement [x80] (-128) /\
  ToByteArray (-129) true = Ok [x7f; xff] /\ twos_complement [x7f; xff] (-129).
Proof. repeat split; try reflexivity; try discriminate; try (cbn; lia); right; reflexivity. Qed.

(** ** C38 BigInteger division and shifts *)
Theorem C38_division : forall a b, b <> 0 -> exists q r,
  big_truediv a b = Ok (mkPI TBig q) /\ big_floordiv a b = Ok (mkPI TBig q) /\ big_mod a b = Ok (mkPI TBig r) /\
  a = q * b + r /\ Z.abs r < Z.abs b /\ (r = 0 \/ Z.sgn r = Z.sgn b).
Proof.
  intros a b H. exists (a / b), (a mod b). unfold big_truediv, big_floordiv, big_mod.
  replace (b =? 0) with false by lia. split; [reflexivity|]. split; [reflexivity|]. split; [reflexivity|].
  pose proof (Z.div_mod a b H). split; [lia|].
  destruct (Z.lt_trichotomy b 0) as [L|[L|L]]; [|lia|].
  - pose proof (Z.mod_neg_bound a b L). split; lia.
  - pose proof (Z.mod_pos_bound a b L). split; lia.
Qed.
Print Assumptions C38_division.
Theorem C38_zero_divisor : forall a, big_truediv a 0 = Raise ZeroDivisionError /\
  big_floordiv a 0 = Raise ZeroDivisionError /\ big_mod a 0 = Raise ZeroDivisionError.
Proof. repeat split; reflexivity. Qed.
Print Assumptions C38_zero_divisor.
Theorem C38_shifts : forall a n, 0 <= n ->
  (exists q r, big_rshift a n = Ok (mkPI TBig q) /\ a = q * 2 ^ n + r /\ 0 <= r < 2 ^ n) /\
  big_lshift a n = Ok (mkPI TBig (a * 2 ^ n)).
Proof.
  intros a n H. unfold big_rshift, big_lshift. replace (n <? 0) with false by lia.
  rewrite Z.shiftr_div_pow2, Z.shiftl_mul_pow2 by lia. split; [|reflexivity].
  assert (0 < 2 ^ n) by (apply Z.pow_pos_nonneg; lia).
  exists (a / 2 ^ n), (a mod 2 ^ n). split; [reflexivity|]. pose proof (Z.div_mod a (2 ^ n)). pose proof (Z.mod_pos_bound a (2 ^ n)). lia.
Qed.
Print Assumptions C38_shifts.
Theorem C38_negative_shift : forall a n, n < 0 -> big_rshift a n = Raise ValueError /\ big_lshift a n = Raise ValueError.
Proof. intros a n H. unfold big_rshift, big_lshift. replace (n <? 0) with true by lia. split; reflexivity. Qed.
Print Assumptions C38_negative_shift.
(** the value never depends on the operands' classes; the result is a BigInteger exactly when
    the left operand is one and the operator is overridden *)
Theorem C38_result_class : forall o a b r, (o = OPow -> 0 <= pi_val b) -> apply_op o a b = Ok r ->
  int_op o (pi_val a) (pi_val b) = Ok (pi_val r) /\
  (pi_cls r = TBig <-> pi_cls a = TBig /\ overridden o).
Proof.
  intros o [ca a] [cb b] r _ H. unfold overridden.
  assert (T : TInt <> TBig) by discriminate.
  destruct ca, o; cbn in *; unfold big_add, big_sub, big_mul, big_mod, big_floordiv, big_rshift, big_lshift, big, as_plain in *; cbn in *;
   try (destruct (b =? 0) eqn:E; [discriminate H|]); try (destruct (b <? 0) eqn:E; [discriminate H|]); cbn in H;
   match type of H with Ok ?x = Ok _ => assert (r = x) as -> by congruence end; cbn;
   (split; [reflexivity|]); intuition congruence.
Qed.
Print Assumptions C38_result_class.
Theorem C38_same_errors : forall o a b e, (o = OPow -> 0 <= pi_val b) -> apply_op o a b = Raise e <-> int_op o (pi_val a) (pi_val b) = Raise e.
Proof.
  intros o [ca a] [cb b] e _.
  destruct ca, o; cbn; unfold big_add, big_sub, big_mul, big_mod, big_floordiv, big_rshift, big_lshift, big, as_plain; cbn;
  try (destruct (b =? 0)); try (destruct (b <? 0)); cbn; split; intros; congruence.
Qed.
Print Assumptions C38_same_errors.
(** the operators are the integer operations, whatever the operands' classes; & | ^ act bitwise
    on two's complement *)
Theorem C38_values : forall c d a b,
  apply_op OAdd (mkPI c a) (mkPI d b) = Ok (mkPI c (a + b)) /\
  apply_op OSub (mkPI c a) (mkPI d b) = Ok (mkPI c (a - b)) /\
  apply_op OMul (mkPI c a) (mkPI d b) = Ok (mkPI c (a * b)) /\
  (0 <= b -> apply_op OPow (mkPI c a) (mkPI d b) = Ok (mkPI TInt (a ^ b))) /\
  (b <> 0 -> exists q r, apply_op OFloorDiv (mkPI c a) (mkPI d b) = Ok (mkPI c q) /\ apply_op OMod (mkPI c a) (mkPI d b) = Ok (mkPI c r) /\
    a = q * b + r /\ Z.abs r < Z.abs b /\ (r = 0 \/ Z.sgn r = Z.sgn b)) /\
  (0 <= b -> apply_op OLShift (mkPI c a) (mkPI d b) = Ok (mkPI c (a * 2 ^ b)) /\
    exists q r, apply_op ORShift (mkPI c a) (mkPI d b) = Ok (mkPI c q) /\ a = q * 2 ^ b + r /\ 0 <= r < 2 ^ b) /\
  (exists x y z, apply_op OAnd (mkPI c a) (mkPI d b) = Ok (mkPI TInt x) /\ apply_op OOr (mkPI c a) (mkPI d b) = Ok (mkPI TInt y) /\
    apply_op OXor (mkPI c a) (mkPI d b) = Ok (mkPI TInt z) /\
    forall i, 0 <= i -> Z.testbit x i = Z.testbit a i && Z.testbit b i /\ Z.testbit y i = Z.testbit a i || Z.testbit b i /\
      Z.testbit z i = xorb (Z.testbit a i) (Z.testbit b i)).
Proof.
  intros c d a b.
  assert (D : forall k, k = c -> apply_op OFloorDiv (mkPI c a) (mkPI d b) = (if b =? 0 then Raise ZeroDivisionError else Ok (mkPI c (a / b))) /\
     apply_op OMod (mkPI c a) (mkPI d b) = (if b =? 0 then Raise ZeroDivisionError else Ok (mkPI c (a mod b)))).
  { intros k _. destruct c; cbn; unfold big_floordiv, big_mod, big, as_plain, int_op; destruct (b =? 0); split; reflexivity. }
  destruct (D c eq_refl) as [D1 D2].
  split; [destruct c; reflexivity|]. split; [destruct c; reflexivity|]. split; [destruct c; reflexivity|].
  split; [intros _; destruct c; reflexivity|]. split; [|split].
  - intros H. exists (a / b), (a mod b). rewrite D1, D2. replace (b =? 0) with false by lia. split; [reflexivity|]. split; [reflexivity|].
    pose proof (Z.div_mod a b H). split; [lia|].
    destruct (Z.lt_trichotomy b 0) as [L|[L|L]]; [pose proof (Z.mod_neg_bound a b L)|lia|pose proof (Z.mod_pos_bound a b L)]; split; lia.
  - intros H. assert (0 < 2 ^ b) by (apply Z.pow_pos_nonneg; lia). split.
    + destruct c; cbn; unfold big_lshift, big, as_plain, int_op; replace (b <? 0) with false by lia; cbn [rmap]; rewrite Z.shiftl_mul_pow2 by lia; reflexivity.
    + exists (a / 2 ^ b), (a mod 2 ^ b). split.
      * destruct c; cbn; unfold big_rshift, big, as_plain, int_op; replace (b <? 0) with false by lia; cbn [rmap]; rewrite Z.shiftr_div_pow2 by lia; reflexivity.
      * pose proof (Z.div_mod a (2 ^ b)). pose proof (Z.mod_pos_bound a (2 ^ b)). lia.
  - exists (Z.land a b), (Z.lor a b), (Z.lxor a b). split; [destruct c; reflexivity|]. split; [destruct c; reflexivity|]. split; [destruct c; reflexivity|].
    intros i Hi. rewrite Z.land_spec, Z.lor_spec, Z.lxor_spec. repeat split; reflexivity.
Qed.
Print Assumptions C38_values.
Theorem C38_constants : forall a, big_add a ZERO = Ok (mkPI TBig a) /\ big_mul a ONE = Ok (mkPI TBig a) /\ Sign ZERO = 0 /\ Sign ONE = 1 /\
  big_mul a ZERO = Ok (mkPI TBig ZERO) /\ ToByteArray ZERO true = Ok [x00] /\ ToByteArray ONE true = Ok [x01].
Proof. intros a. unfold big_add, big_mul, ZERO, ONE, big. repeat split; try reflexivity; do 2 f_equal; lia. Qed.
Print Assumptions C38_constants.
Theorem C38_unary : forall a, big_neg a = Ok (mkPI TBig (- a)) /\ big_abs a = Ok (mkPI TBig (Z.abs a)) /\
  Sign a = Z.sgn a /\ (forall b, Equals a b = true <-> a = b).
Proof.
  intros a. split; [reflexivity|]. split; [reflexivity|]. split.
  - unfold Sign. destruct (0 <? a) eqn:E; [lia|]. destruct (a =? 0) eqn:F; lia.
  - intros b. unfold Equals. lia.
Qed.
Print Assumptions C38_unary.
(** divmod, +x and ~x (= -x-1) give plain ints for either class, with the same numbers as / and % *)
Theorem C38_not_overridden : forall c d a b,
  (b <> 0 -> exists q r, py_divmod (mkPI c a) (mkPI d b) = Ok (mkPI TInt q, mkPI TInt r) /\
     big_floordiv a b = Ok (mkPI TBig q) /\ big_truediv a b = Ok (mkPI TBig q) /\ big_mod a b = Ok (mkPI TBig r) /\
     a = q * b + r /\ Z.abs r < Z.abs b /\ (r = 0 \/ Z.sgn r = Z.sgn b)) /\
  py_divmod (mkPI c a) (mkPI d 0) = Raise ZeroDivisionError /\
  py_pos (mkPI c a) = Ok (mkPI TInt a) /\ py_invert (mkPI c a) = Ok (mkPI TInt (- a - 1)).
Proof.
  intros c d a b. split.
  - intros Hb. destruct (C38_division a b Hb) as (q & r & H1 & H2 & H3 & H4).
    assert (q = a / b /\ r = a mod b) as [-> ->].
    { unfold big_floordiv, big_mod, big in *. destruct (b =? 0); [discriminate|]. split; congruence. }
    exists (a / b), (a mod b). unfold py_divmod. cbn [pi_val]. replace (b =? 0) with false by lia. repeat split; try assumption; apply H4.
  - split; [reflexivity|]. split; [reflexivity|]. unfold py_invert, as_plain, rmap. cbn [pi_val].
    replace (Z.lnot a) with (- a - 1) by (unfold Z.lnot; lia). reflexivity.
Qed.
Print Assumptions C38_not_overridden.
(** bools and BigIntegers count as the ints they stand for; with a right operand of any other type
    (a float, a text, None, ...) the overridden operators raise TypeError *)
Theorem C38_other_operands : forall o a v, overridden o ->
  (forall z, v = VInt z \/ v = VBig z \/ (v = VBool true /\ z = 1) \/ (v = VBool false /\ z = 0) ->
     big_op_any o a v = apply_op o (mkPI TBig a) (mkPI TInt z) /\ big_truediv_any a v = big_truediv a z) /\
  ((forall z, v <> VInt z) -> (forall z, v <> VBig z) -> (forall b, v <> VBool b) -> big_op_any o a v = Raise TypeError /\ big_truediv_any a v = Raise TypeError).
Proof.
  intros o a v _. split.
  - intros z [->|[->|[[-> ->]|[-> ->]]]]; split; reflexivity.
  - intros H1 H2 H3. unfold big_op_any, big_truediv_any. destruct v; try (split; reflexivity); exfalso; [eapply H1|eapply H3|eapply H2]; reflexivity.
Qed.
Print Assumptions C38_other_operands.
Example C38_example : big_truediv (-7) 2 = Ok (mkPI TBig (-4)) /\ big_mod (-7) 2 = Ok (mkPI TBig 1) /\
  big_mod 7 (-2) = Ok (mkPI TBig (-1)) /\ big_rshift (-7) 1 = Ok (mkPI TBig (-4)) /\
  apply_op OAdd (mkPI TBig 2) (mkPI TInt 3) = Ok (mkPI TBig 5) /\ apply_op OAdd (mkPI TInt 3) (mkPI TBig 2) = Ok (mkPI TInt 5).
Proof. repeat split; reflexivity. Qed.

(** ** C119 Equals and FromBytes with arguments of other types *)
(** Equals gives True or False for numbers only; anything else -- a text, bytes, None, a float -- is
    answered with the object NotImplemented, which a condition takes for true. *)
Theorem C119_Equals : forall x v,
  (forall z, v = VInt z \/ v = VBig z \/ (v = VBool true /\ z = 1) \/ (v = VBool false /\ z = 0) ->
     exists b, Equals_any x v = Answer b /\ (b = true <-> x = z)) /\
  ((forall z, v <> VInt z) -> (forall z, v <> VBig z) -> (forall b, v <> VBool b) -> Equals_any x v = NotImplementedObject).
Proof.
  intros x v. split.
  - intros z H. exists (x =? z). split; [|apply Z.eqb_eq].
    destruct H as [->|[->|[[-> ->]|[-> ->]]]]; reflexivity.
  - intros A B C. destruct v as [b|b|s|z|b|z| |]; try reflexivity; [destruct (A z)|destruct (C b)|destruct (B z)]; reflexivity.
Qed.
Print Assumptions C119_Equals.
(** So [if x.Equals(v)] takes its branch for every [v] that is not a number, and it is skipped only for a
    different number; [x == v] is False for texts, bytes and None. *)
Theorem C119_condition : forall x v,
  (truth (Equals_any x v) = false <-> exists z, (v = VInt z \/ v = VBig z \/ (v = VBool true /\ z = 1) \/ (v = VBool false /\ z = 0)) /\ z <> x) /\
  (forall asked s b, v = VStr s \/ v = VBytes b \/ v = VBytearray b \/ v = VNone -> big_eq_any asked x v = false /\ truth (Equals_any x v) = true) /\
  (forall asked, v <> VOther -> big_eq_any asked x v = true -> truth (Equals_any x v) = true).
Proof.
  intros x v. split; [|split].
  - split.
    + destruct v as [b|b|s|z|b|z| |]; cbn [Equals_any as_int truth]; intros H; try discriminate; apply Z.eqb_neq in H.
      * exists z. split; [auto|congruence].
      * destruct b; [exists 1|exists 0]; (split; [auto|cbn [z_of_bool] in H; congruence]).
      * exists z. split; [auto|congruence].
    + intros (z & H & N). destruct (proj1 (C119_Equals x v) z H) as (b & E & B). rewrite E. cbn [truth]. destruct b; [|reflexivity]. destruct N. symmetry. apply B. reflexivity.
  - intros asked s b [->|[->|[->| ->]]]; split; reflexivity.
  - intros asked N. unfold big_eq_any. destruct (Equals_any x v) as [b|]; [auto|reflexivity].
Qed.
Print Assumptions C119_condition.
(** FromBytes of a list of numbers in range(256) is FromBytes of the bytes they stand for; the first
    element that is not one decides the error. *)
Theorem C119_FromBytes : forall src signed,
  (forall b, src = SVal (VBytes b) \/ src = SVal (VBytearray b) \/ (exists l, src = SList l /\ Forall2 (fun v x => as_int v = Some (b2z x)) l b) ->
     FromBytes_any src signed = Ok (FromBytes b signed)) /\
  (forall pre v post e, src = SList (pre ++ v :: post) ->
     Forall (fun u => exists z, as_int u = Some z /\ 0 <= z < 256) pre ->
     (as_int v = None /\ e = TypeError) \/ (exists z, as_int v = Some z /\ ~ 0 <= z < 256 /\ e = ValueError) ->
     FromBytes_any src signed = Raise e) /\
  (forall v, src = SVal v -> (forall b, v <> VBytes b /\ v <> VBytearray b) -> FromBytes_any src signed = Raise TypeError).
Proof.
  intros src signed. split; [|split].
  - intros b [->|[->|(l & -> & F)]]; try reflexivity. cbn [FromBytes_any].
    assert (source_bytes l = Ok b) as ->; [|reflexivity].
    induction F as [|v x l b E F IH]; [reflexivity|]. cbn [source_bytes]. unfold source_byte. rewrite E. pose proof (b2z_range x).
    replace ((0 <=? b2z x) && (b2z x <? 256)) with true by lia. cbn [rbind]. rewrite IH, z2b_b2z. reflexivity.
  - intros pre v post e -> P V. cbn [FromBytes_any]. assert (source_bytes (pre ++ v :: post) = Raise e) as ->; [|reflexivity].
    induction P as [|u pre (z & E & B) P IH]; cbn [app source_bytes].
    + unfold source_byte. destruct V as [[-> ->]|(z & -> & N & ->)]; [reflexivity|]. replace ((0 <=? z) && (z <? 256)) with false by lia. reflexivity.
    + unfold source_byte at 1. rewrite E. replace ((0 <=? z) && (z <? 256)) with true by lia. cbn [rbind]. rewrite IH. reflexivity.
  - intros v -> N. destruct v as [b|b|s|z|b|z| |]; try reflexivity; destruct (N b); congruence.
Qed.
Print Assumptions C119_FromBytes.
(** the hypotheses of the three theorems; -65025 = 255 + 256*1 + 65536*255 - 2^24 *)
Example C119_example : Equals_any 5 (VStr [120]) = NotImplementedObject /\ truth (Equals_any 5 VNone) = true /\ big_eq_any true 5 VNone = false /\
  Equals_any 1 (VBool true) = Answer true /\ Equals_any 5 (VBig 6) = Answer false /\
  FromBytes_any (SList [VInt 255; VBool true; VBig 255]) true = Ok (mkPI TBig (-65025)) /\
  FromBytes_any (SList [VInt 255; VStr [49]; VInt 256]) false = Raise TypeError /\ FromBytes_any (SList [VInt 256; VStr [49]]) false = Raise ValueError /\
  FromBytes_any (SVal (VInt 5)) false = Raise TypeError.
Proof. repeat split; vm_compute; reflexivity. Qed.
Print Assumptions C119_example.
