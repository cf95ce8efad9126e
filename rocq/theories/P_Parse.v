(** * P_Parse: C107: what Fixed8.TryParse accepts and what it makes of it *)
From Coq Require Import String Reals Lia Lra ZifyBool ZifyNat.
From Flocq Require Import Core BinarySingleNaN.
From Coq Require Import Floats.SpecFloat.
From Verif Require Import M_Py M_Float M_Fixed8 M_Parse S_Float S_Fixed8 S_Parse L_Float L_Fixed8 L_Fixed8b L_Parse L_Bytes P_Fixed8.
Open Scope Z_scope.

(** after the two try blocks, for a float *)
Definition core (f : pyfloat) (rp : bool) : res (option Z) := if rp && fneg f then Ok None else do r <- py_int (fmul f F_D); Ok (Some r).
Lemma core_number f neg x rp : rounded f neg x -> ~ overflows x -> ~ overflows (rnd64 x * 100000000) ->
  core f rp = Ok (if rp && Rlt_bool (rnd64 x) 0 then None else Some (Ztrunc (rnd64 (rnd64 x * 100000000)))).
Proof.
  intros (V & R) N1 N2. destruct R as [(A & B & C & _)|[O _]]; [|contradiction].
  assert (F : float_is f (rnd64 x)) by (split; [exact C|split; [exact V|exact B]]).
  unfold core. replace (fneg f) with (Rlt_bool (rnd64 x) 0).
  2:{ pose proof (fneg_sign f _ F) as Q. destruct (Rlt_bool_spec (rnd64 x) 0) as [L|L]; [symmetry; apply Q, L|]. destruct (fneg f); [|reflexivity]. assert (rnd64 x < 0)%R by (apply Q; reflexivity). lra. }
  destruct (rp && Rlt_bool (rnd64 x) 0); [reflexivity|]. rewrite (proj1 (times_D _ _ F) N2). reflexivity.
Qed.
Lemma core_inf neg rp : core (S754_infinity neg) rp = if rp && neg then Ok None else Raise OverflowError.
Proof. destruct rp, neg; reflexivity. Qed.
Lemma core_large f neg x rp : rounded f neg x -> overflows x \/ overflows (rnd64 x * 100000000) ->
  core f rp = if rp && neg then Ok None else Raise OverflowError.
Proof.
  intros (V & R) O. destruct R as [(A & B & C & D)|[_ ->]]; [|apply core_inf].
  assert (F : float_is f (rnd64 x)) by (split; [exact C|split; [exact V|exact B]]). destruct O as [O|O]; [unfold overflows in O; lra|].
  unfold core. replace (fneg f) with neg.
  - destruct (rp && neg); [reflexivity|]. rewrite (proj2 (times_D _ _ F) O). reflexivity.
  - destruct f as [s|s| |s m e]; try discriminate; cbn in D; subst s; [|destruct neg; reflexivity].
    exfalso. cbn in B. rewrite <- B in O. rewrite Rmult_0_l in O. unfold overflows, rnd64 in O. rewrite round_0 in O by auto with typeclass_instances.
    rewrite Rabs_R0 in O. pose proof (bpow_gt_0 radix2 1024). lra.
Qed.
(** float(value) decides, whenever a zero float goes with a zero int *)
Lemma parse_core U v rp f : arg_float U v = Some f -> (ftruthy f = false -> forall z, arg_int U v = Some z -> z = 0) -> TryParse_any U v rp = core f rp.
Proof.
  intros E Q. unfold TryParse_any, second_try. rewrite E. destruct (ftruthy f) eqn:T; [reflexivity|]. destruct (arg_int U v) as [z|] eqn:I; [|reflexivity].
  rewrite (Q eq_refl z eq_refl). destruct f as [s|s| |s m e]; try discriminate. destruct rp, s; reflexivity.
Qed.
Lemma text_zero s f : float_of_text s = Some f -> ftruthy f = false -> forall z, int_of_text s = Some z -> z = 0.
Proof. intros E T z I. destruct (int_text_float_text s z I) as (g & G & Z0). assert (g = f) as -> by congruence. exact (Z0 T). Qed.
(** characters *)
Lemma float_text_chars t v : float_text t v -> Forall (fun c => c < 127 /\ c <> 63) t.
Proof.
  intros T. destruct (float_text_complete t v T) as (f & E & _). apply Forall_forall. intros c C.
  assert (BL : forall b, blanks b -> In c b -> c < 127 /\ c <> 63) by (intros b B I; apply (proj1 (Forall_forall _ _) B) in I; lia).
  assert (SG : forall sg neg, sign_part sg neg -> In c sg -> c < 127 /\ c <> 63) by (intros sg neg S1 I; destruct S1; cbn in I; lia).
  assert (DG : forall a ds, digit_part a ds -> In c a -> c < 127 /\ c <> 63).
  { induction 1 as [d D|d s ds D _ IH|d s ds D _ IH]; cbn [In app]; unfold digit_code in D; intros I; [lia|destruct I as [I|I]; [lia|exact (IH I)]|destruct I as [I|[I|I]]; [lia|cbn in I; lia|exact (IH I)]]. }
  assert (MT : forall m ip fp, mantissa m ip fp -> In c m -> c < 127 /\ c <> 63).
  { intros m ip fp M I. destruct M as [a ip A|a ip A|b fp B|a ip b fp A B]; repeat (apply in_app_or in I; destruct I as [I|I]); eauto; cbn in I; lia. }
  assert (EX : forall ex e, exponent_part ex e -> In c ex -> c < 127 /\ c <> 63).
  { intros ex e X I. destruct X as [|l sg neg d ds L S1 D]; [destruct I|]. apply in_app_or in I. destruct I as [I|I]; [destruct L as [-> | ->]; cbn in I; lia|]. apply in_app_or in I. destruct I as [I|I]; eauto. }
  assert (WD : forall w w0, forallb (fun l => (97 <=? l) && (l <=? 122)) (str w0) = true -> same_but_case w w0 -> In c w -> c < 127 /\ c <> 63).
  { intros w w0 H W I. apply (proj1 (Forall_forall _ _) (word_letters w w0 H W)) in I. lia. }
  destruct T as [b1 sg neg m ip fp ex e b2 B1 B2 S1 M X|b1 sg neg w b2 B1 B2 S1 W|b1 sg neg w b2 B1 B2 S1 W]; repeat (apply in_app_or in C; destruct C as [C|C]); eauto.
  - destruct W as [W|W]; [apply (WD w "inf"%string)|apply (WD w "infinity"%string)]; (reflexivity || assumption).
  - apply (WD w "nan"%string); (reflexivity || assumption).
Qed.
Lemma reads_to_ascii U s t : unicode_ok U -> Forall2 (reads_char U) s t -> to_ascii U s = t.
Proof.
  intros (_ & U1 & U2) F. unfold to_ascii. destruct (forallb (fun c => c <? 128) s) eqn:A.
  - induction F as [|c d s t C F IH]; [reflexivity|]. cbn [forallb] in A. apply andb_prop in A as [A1 A2]. rewrite (IH A2) at 1. f_equal.
    destruct C as [[C ->]|[(C & S1 & ->)|(C & S1 & e & E & ->)]]; [reflexivity| |]; (assert (c = 127) as -> by lia; congruence).
  - clear A. induction F as [|c d s t C F IH]; [reflexivity|]. cbn [map]. rewrite IH. f_equal. unfold to_ascii_char.
    destruct C as [[C ->]|[(C & S1 & ->)|(C & S1 & e & E & ->)]]; [replace (c <? 127) with true by lia; reflexivity| |]; replace (c <? 127) with false by lia; rewrite S1; [reflexivity|rewrite E; reflexivity].
Qed.
Lemma ascii_reads U s v : float_text (to_ascii U s) v -> Forall2 (reads_char U) s (to_ascii U s).
Proof.
  intros T. apply float_text_chars in T. unfold to_ascii in *. destruct (forallb (fun c => c <? 128) s).
  - induction T as [|c s [C1 C2] T IH]; constructor; [left; split; [exact C1|reflexivity]|exact IH].
  - remember (map (to_ascii_char U) s) as t eqn:E. revert s E. induction T as [|d t [C1 C2] T IH]; intros [|c s] E; try discriminate; constructor.
    + cbn in E. assert (d = to_ascii_char U c) as -> by congruence. unfold to_ascii_char in *. destruct (c <? 127) eqn:Q; [left; split; [lia|reflexivity]|].
      destruct (u_space U c) eqn:Sp; [right; left; split; [lia|auto]|]. destruct (u_decimal U c) as [d|] eqn:De; [|lia]. right; right. split; [lia|]. split; [exact Sp|]. exists d. split; [exact De|reflexivity].
    + apply IH. cbn in E. congruence.
Qed.
Lemma dec_zero d : 0 <= d_coef d -> ftruthy (float_of_dec d) = false -> int_of_dec d = 0.
Proof.
  destruct d as [s c e]. unfold float_of_dec, int_of_dec. cbn [d_coef d_exp d_sign]. intros C T.
  assert (P1 : 0 < 10 ^ Z.max 0 e) by (apply Z.pow_pos_nonneg; lia). assert (P2 : 0 < 10 ^ Z.max 0 (- e)) by (apply Z.pow_pos_nonneg; lia).
  assert (L : c * 10 ^ Z.max 0 e < 10 ^ Z.max 0 (- e)).
  { destruct (Z_lt_le_dec (c * 10 ^ Z.max 0 e) (10 ^ Z.max 0 (- e))) as [Q|Q]; [exact Q|]. exfalso. destruct (c * 10 ^ Z.max 0 e) as [|n|n]; [lia| |lia].
    destruct (10 ^ Z.max 0 (- e)) as [|m|m]; [lia| |lia]. cbn [float_of_fraction] in T. rewrite ratio_truthy in T by exact Q. discriminate. }
  destruct (Z.leb_spec 0 e) as [E|E].
  - rewrite Z.max_r in L by lia. rewrite (Z.max_l 0 (- e)) in L by lia. change (10 ^ 0) with 1 in L. rewrite Z.max_r in P1 by lia. assert (c = 0) as -> by nia. destruct s; reflexivity.
  - rewrite Z.max_l in L by lia. rewrite (Z.max_r 0 (- e)) in L by lia. change (10 ^ 0) with 1 in L. rewrite Z.div_small by lia. destruct s; reflexivity.
Qed.
Lemma dec_rounded neg c e : 0 <= c -> rounded (float_of_dec (mkDec neg c e)) neg ((if neg then -1 else 1) * IZR c * powerRZ 10 e).
Proof.
  intros C. unfold float_of_dec. cbn [d_coef d_exp d_sign].
  assert (P1 : 0 < 10 ^ Z.max 0 e) by (apply Z.pow_pos_nonneg; lia). assert (P2 : 0 < 10 ^ Z.max 0 (- e)) by (apply Z.pow_pos_nonneg; lia).
  rewrite <- ten_power, Rmult_assoc. replace (IZR c * (IZR (10 ^ Z.max 0 e) / IZR (10 ^ Z.max 0 (- e))))%R with (IZR (c * 10 ^ Z.max 0 e) / IZR (10 ^ Z.max 0 (- e)))%R by (rewrite mult_IZR; unfold Rdiv; ring).
  apply float_of_fraction_spec; [apply Z.mul_nonneg_nonneg; lia|exact P2].
Qed.
Local Instance Hprec : FLX.Prec_gt_0 53 := eq_refl _.
Local Instance Hmax : Prec_lt_emax 53 1024 := eq_refl _.
Lemma float_rounded f : is_finite_SF f = true -> valid_binary 53 1024 f = true -> rounded f (sign_SF f) (SF2R radix2 f).
Proof.
  intros F V. split; [exact V|]. left.
  assert (R : rnd64 (SF2R radix2 f) = SF2R radix2 f).
  { apply round_generic; [typeclasses eauto|]. pose proof (generic_format_B2R 53 1024 (SF2B f V)) as G. rewrite B2R_SF2B in G. exact G. }
  rewrite R. split; [|auto]. pose proof (abs_B2R_lt_emax 53 1024 (SF2B f V)) as G. rewrite B2R_SF2B in G. exact G.
Qed.
Lemma means_core U v m : unicode_ok U -> means U v m -> exists f, denotes f m /\ forall rp, TryParse_any U v rp = core f rp.
Proof.
  intros O M. destruct M as [s t v R T|b v T|f F V|neg| |neg c e C|neg|].
  - destruct (float_text_complete _ _ T) as (f & E & Dn). exists f. split; [exact Dn|]. intros rp. rewrite <- (reads_to_ascii U s t O R) in E. apply parse_core; [exact E|]. exact (text_zero _ _ E).
  - destruct (float_text_complete _ _ T) as (f & E & Dn). exists f. split; [exact Dn|]. intros rp. apply parse_core; [exact E|]. exact (text_zero _ _ E).
  - exists f. split; [exact (float_rounded f F V)|]. intros rp. apply parse_core; [reflexivity|]. intros T z E. destruct f as [s|s| |s m e]; try discriminate. cbn in E. congruence.
  - exists (S754_infinity neg). split; [reflexivity|]. intros rp. apply parse_core; [reflexivity|discriminate].
  - exists S754_nan. split; [reflexivity|]. intros rp. apply parse_core; [reflexivity|discriminate].
  - eexists. split; [exact (dec_rounded neg c e C)|]. intros rp. apply parse_core; [reflexivity|]. intros T z E. cbn [arg_int] in E. assert (z = int_of_dec (mkDec neg c e)) as -> by congruence. exact (dec_zero (mkDec neg c e) C T).
  - exists (S754_infinity neg). split; [reflexivity|]. intros rp. apply parse_core; [reflexivity|discriminate].
  - exists S754_nan. split; [reflexivity|]. intros rp. apply parse_core; [reflexivity|discriminate].
Qed.

(** an argument that float() does not take *)
Lemma float_means U v f : (match v with AInt _ | AOther _ _ => False | AFloat g => valid_binary 53 1024 g = true | ADecimal d => 0 <= d_coef d | _ => True end) ->
  arg_float U v = Some f -> exists m, means U v m.
Proof.
  intros K E. destruct v as [s|b|z|g|d|neg|[|]|af ai]; try contradiction; cbn [arg_float] in E.
  - destruct (float_text_sound _ _ E) as (m & T & _). exists m. exact (mn_text U s _ m (ascii_reads U s m T) T).
  - destruct (float_text_sound _ _ E) as (m & T & _). exists m. exact (mn_bytes U b m T).
  - destruct (is_finite_SF g) eqn:Fi; [exists (Number (sign_SF g) (SF2R radix2 g)); constructor; assumption|]. destruct g as [s|s| |s m e]; try discriminate; [exists (Infinite s)|exists NotANumber]; constructor.
  - destruct d as [neg c e]. eexists. constructor. exact K.
  - exists (Infinite neg). constructor.
  - discriminate.
  - exists NotANumber. constructor.
Qed.

(** ** C107: the value parsed *)
(** a number: the nearest float, times 10^8 rounded to the nearest float, without its fraction *)
Theorem C107_number : forall U v neg x rp, unicode_ok U -> means U v (Number neg x) -> ~ overflows x -> ~ overflows (rnd64 x * 100000000) ->
  TryParse_any U v rp = Ok (if rp && Rlt_bool (rnd64 x) 0 then None else Some (Ztrunc (rnd64 (rnd64 x * 100000000)))).
Proof. intros U v neg x rp O M N1 N2. destruct (means_core U v _ O M) as (f & Dn & ->). exact (core_number f neg x rp Dn N1 N2). Qed.
Print Assumptions C107_number.
Theorem C107_too_large : forall U v neg x rp, unicode_ok U -> means U v (Number neg x) -> overflows x \/ overflows (rnd64 x * 100000000) ->
  TryParse_any U v rp = if rp && neg then Ok None else Raise OverflowError.
Proof. intros U v neg x rp O M N. destruct (means_core U v _ O M) as (f & Dn & ->). exact (core_large f neg x rp Dn N). Qed.
Print Assumptions C107_too_large.
Theorem C107_infinite : forall U v neg rp, unicode_ok U -> means U v (Infinite neg) ->
  TryParse_any U v rp = if rp && neg then Ok None else Raise OverflowError.
Proof. intros U v neg rp O M. destruct (means_core U v _ O M) as (f & Dn & ->). cbn [denotes] in Dn. subst f. apply core_inf. Qed.
Print Assumptions C107_infinite.
Theorem C107_nan : forall U v rp, unicode_ok U -> means U v NotANumber -> TryParse_any U v rp = Raise ValueError.
Proof. intros U v rp O M. destruct (means_core U v _ O M) as (f & Dn & ->). cbn [denotes] in Dn. subst f. destruct rp; reflexivity. Qed.
Print Assumptions C107_nan.
(** ** and None is returned for exactly the texts and byte strings that are not in the grammar (and for
    negative numbers, if they are not wanted) *)
Theorem C107_none_text : forall U s, unicode_ok U -> (TryParse_any U (AText s) false = Ok None <-> ~ exists m, means U (AText s) m).
Proof.
  intros U s O. split.
  - intros E (m & M). destruct (means_core U _ _ O M) as (f & _ & Q). rewrite (Q false) in E. unfold core in E. cbn [andb] in E. destruct (py_int (fmul f F_D)); discriminate.
  - intros N. unfold TryParse_any, second_try. destruct (arg_float U (AText s)) as [f|] eqn:E; [destruct N; exact (float_means U (AText s) f I E)|].
    destruct (arg_int U (AText s)) as [z|] eqn:I1; [|reflexivity]. cbn [arg_float arg_int] in *. destruct (int_text_float_text _ z I1) as (f & Hf & _). congruence.
Qed.
Print Assumptions C107_none_text.
Theorem C107_none_bytes : forall U b, unicode_ok U -> (TryParse_any U (ABytes b) false = Ok None <-> ~ exists m, means U (ABytes b) m).
Proof.
  intros U s O. split.
  - intros E (m & M). destruct (means_core U _ _ O M) as (f & _ & Q). rewrite (Q false) in E. unfold core in E. cbn [andb] in E. destruct (py_int (fmul f F_D)); discriminate.
  - intros N. unfold TryParse_any, second_try. destruct (arg_float U (ABytes s)) as [f|] eqn:E; [destruct N; exact (float_means U (ABytes s) f I E)|].
    destruct (arg_int U (ABytes s)) as [z|] eqn:I1; [|reflexivity]. cbn [arg_float arg_int] in *. destruct (int_text_float_text _ z I1) as (f & Hf & _). congruence.
Qed.
Print Assumptions C107_none_bytes.
(** a text has one meaning at most *)
Theorem C107_one_meaning : forall s v w, float_text s v -> float_text s w -> 
  match v, w with
  | Number n x, Number m y => n = m /\ (overflows x <-> overflows y) /\ (~ overflows x -> rnd64 x = rnd64 y)
  | Infinite n, Infinite m => n = m
  | NotANumber, NotANumber => True
  | Number n x, Infinite m => n = m /\ overflows x
  | Infinite n, Number m y => n = m /\ overflows y
  | _, _ => False
  end.
Proof.
  intros s v w A B. destruct (float_text_complete s v A) as (f & E & Dv). destruct (float_text_complete s w B) as (g & E' & Dw). assert (g = f) as -> by congruence. clear A B E E'.
  assert (K1 : forall a x, rounded (S754_infinity a) a x -> overflows x).
  { intros a x (_ & [(_ & _ & Fi & _)|[Q _]]); [discriminate|exact Q]. }
  destruct v as [n x|n|], w as [m y|m|]; cbn [denotes] in Dv, Dw; try exact I.
  - destruct Dv as (_ & [(A1 & A2 & A3 & A4)|[A1 A2]]), Dw as (_ & [(B1 & B2 & B3 & B4)|[B1 B2]]).
    + split; [congruence|]. unfold overflows. split; [split; intros; lra|]. congruence.
    + rewrite B2 in A3. discriminate.
    + rewrite A2 in B3. discriminate.
    + split; [congruence|]. split; [tauto|]. intros; contradiction.
  - subst f. destruct Dv as (_ & [(A1 & A2 & A3 & A4)|[A1 A2]]); [discriminate|]. split; [congruence|exact A1].
  - subst f. destruct Dv as (_ & [(A1 & A2 & A3 & A4)|[A1 A2]]); discriminate.
  - subst f. destruct Dw as (_ & [(A1 & A2 & A3 & A4)|[A1 A2]]); [discriminate|]. split; [congruence|exact A1].
  - congruence.
  - congruence.
  - subst f. destruct Dw as (_ & [(A1 & A2 & A3 & A4)|[A1 A2]]); discriminate.
  - congruence.
Qed.
Print Assumptions C107_one_meaning.
(** ** amounts of at most eight decimals, however they are written: right, or one satoshi short *)
Theorem C107_eight_decimals : forall U v neg n, unicode_ok U -> means U v (Number neg (IZR n / 100000000)) -> Z.abs n < 2 ^ 52 ->
  exists r, TryParse_any U v false = Ok (Some r) /\ at_most_one_short r n.
Proof.
  intros U v neg n O M B. exists (Ztrunc (rnd64 (rnd64 (IZR n / 100000000) * 100000000))). split; [|exact (one_satoshi n B)].
  assert (A : (Rabs (IZR n / 100000000) <= 67108864)%R).
  { unfold Rdiv. rewrite Rabs_mult, <- abs_IZR, (Rabs_right (/ 100000000)) by lra. assert (IZR (Z.abs n) <= 4503599627370496)%R by (apply IZR_le; lia). lra. }
  assert (P : (9007199254740992 <= IZR (2 ^ 53))%R) by (apply IZR_le; lia).
  rewrite (C107_number U v neg _ false O M); [reflexivity|apply small_no_overflow; lra|]. apply small_no_overflow.
  assert (Hb : (Rabs (rnd64 (IZR n / 100000000)) <= 67108864)%R).
  { apply Rabs_le_inv in A. apply Rabs_le. split; [apply (rnd64_ge (-67108864)); [lia|lra]|apply rnd64_le; [lia|lra]]. }
  rewrite Rabs_mult, (Rabs_right 100000000) by lra. lra.
Qed.
Print Assumptions C107_eight_decimals.
(** so a Decimal is read exactly by FromDecimal, but TryParse may lose a satoshi *)
Theorem C107_decimal : forall U (neg : bool) c e n, unicode_ok U -> 0 <= c -> -8 <= e -> n = (if neg then -1 else 1) * (c * 10 ^ (8 + e)) -> Z.abs n < 2 ^ 52 ->
  FromDecimal_dec (mkDec neg c e) = Ok n /\ exists r, TryParse_any U (ADecimal (mkDec neg c e)) false = Ok (Some r) /\ at_most_one_short r n.
Proof.
  intros U neg c e n O C E N B. assert (P : 0 < 10 ^ (8 + e)) by (apply Z.pow_pos_nonneg; lia).
  assert (Cb : c < 10 ^ 28). { apply Z.le_lt_trans with (c * 10 ^ (8 + e)); [nia|]. apply Z.lt_trans with (2 ^ 52); [destruct neg; lia|reflexivity]. }
  split; [rewrite N; apply C43_decimal; [lia..|]; apply C43_limit; apply Z.lt_trans with (2 ^ 52); [destruct neg; lia|reflexivity]|].
  apply (C107_eight_decimals U _ neg); [exact O| |exact B].
  replace (IZR n / 100000000)%R with ((if neg then -1 else 1) * IZR c * powerRZ 10 e)%R; [apply mn_decimal, C|].
  rewrite <- (ten_power e), N, !mult_IZR. replace (IZR (if neg then -1 else 1)) with (if neg then -1 else 1)%R by (destruct neg; reflexivity).
  assert (Q : (IZR (10 ^ (8 + e)) * IZR (10 ^ Z.max 0 (- e)) = IZR (10 ^ Z.max 0 e) * 100000000)%R).
  { change 100000000%R with (IZR (10 ^ 8)). rewrite <- !mult_IZR. f_equal. rewrite <- !Z.pow_add_r by lia. f_equal. lia. }
  assert (Z1 : (0 < IZR (10 ^ Z.max 0 (- e)))%R) by (apply IZR_lt, Z.pow_pos_nonneg; lia).
  apply (Rmult_eq_reg_r (IZR (10 ^ Z.max 0 (- e)) * 100000000)); [|lra].
  transitivity ((if neg then -1 else 1) * IZR c * (IZR (10 ^ Z.max 0 e) * 100000000))%R; [field; lra|]. rewrite <- Q. field.
Qed.
Print Assumptions C107_decimal.
(** ** ints (also bool and BigInteger) *)
Lemma int_case U z rp : TryParse_any U (AInt z) rp = TryParse (PInt z) rp.
Proof. reflexivity. Qed.
Theorem C107_int : forall U z rp, ~ overflows (IZR z) ->
  TryParse_any U (AInt z) rp = if rp && (z <? 0) then Ok None else
    if Rle_bool (bpow radix2 1024) (Rabs (rnd64 (rnd64 (IZR z) * 100000000))) then Raise OverflowError
    else Ok (Some (Ztrunc (rnd64 (rnd64 (IZR z) * 100000000)))).
Proof.
  intros U z rp N. destruct (Z.eq_dec z 0) as [->|Nz].
  { assert (Z0 : rnd64 0 = 0%R) by (unfold rnd64; apply round_0; auto with typeclass_instances). rewrite Z0, Rmult_0_l, Z0, Rabs_R0, (Ztrunc_IZR 0).
    rewrite Rle_bool_false by apply bpow_gt_0. destruct rp; vm_compute; reflexivity. }
  destruct (float_of_int_spec z Nz) as [(f & E & F & T)|[O _]]; [|contradiction].
  unfold TryParse_any, second_try. cbn [arg_float arg_int]. rewrite E. cbn [res_opt]. rewrite T. cbn [finish_parse].
  replace (fneg f) with (z <? 0).
  - destruct (rp && (z <? 0)); [reflexivity|]. case Rle_bool_spec; intros L.
    + rewrite (proj2 (times_D _ _ F) L). reflexivity.
    + rewrite (proj1 (times_D _ _ F)); [reflexivity|]. unfold overflows. lra.
  - pose proof (fneg_sign f _ F) as Q. destruct (Z.ltb_spec z 0) as [L|L].
    + symmetry. apply Q. assert (rnd64 (IZR z) <= IZR (-1))%R by (apply rnd64_le; [lia|apply IZR_le; lia]). lra.
    + destruct (fneg f); [|reflexivity]. exfalso. assert (rnd64 (IZR z) < 0)%R by (apply Q; reflexivity). assert (IZR 0 <= rnd64 (IZR z))%R by (apply rnd64_ge; [lia|apply IZR_le; lia]). lra.
Qed.
Print Assumptions C107_int.
Theorem C107_huge_int : forall U z rp, overflows (IZR z) -> TryParse_any U (AInt z) rp = Ok (if rp && (z <? 0) then None else Some (z * 100000000)).
Proof. intros U z rp O. rewrite int_case. exact (C44_huge_int z rp O). Qed.
Print Assumptions C107_huge_int.
(** ** other objects: float(value) counts unless it raises or is zero; then int(value) counts unless
    it raises *)
Theorem C107_other : forall U f i rp,
  TryParse_any U (AOther f i) rp =
    match f, i with
    | None, None => Ok None
    | None, Some z => if rp && (z <? 0) then Ok None else Ok (Some (z * 100000000))
    | Some x, None => TryParse_any U (AFloat x) rp
    | Some x, Some z => if ftruthy x then TryParse_any U (AFloat x) rp else if rp && (z <? 0) then Ok None else Ok (Some (z * 100000000))
    end.
Proof.
  intros U [x|] [z|] rp; unfold TryParse_any, second_try; cbn [arg_float arg_int]; try reflexivity.
  - destruct (ftruthy x); reflexivity.
  - destruct (ftruthy x) eqn:T; [reflexivity|]. destruct x as [s|s| |s m e]; try discriminate. destruct rp, s; reflexivity.
Qed.
Print Assumptions C107_other.
(** a signalling NaN is the one Decimal that gives None *)
Theorem C107_signalling : forall U rp, TryParse_any U (ADecNaN true) rp = Ok None.
Proof. reflexivity. Qed.
Print Assumptions C107_signalling.
(** ** examples *)
(** part of the Unicode database: NEL, the no-break and the ideographic space; the Arabic-Indic and
    the full-width digits *)
Definition some_unicode : unicode := mkUnicode (fun c => (c =? 133) || (c =? 160) || (c =? 12288))
  (fun c => if (1632 <=? c) && (c <=? 1641) then Some (c - 1632) else if (65296 <=? c) && (c <=? 65305) then Some (c - 65296) else None).
(** "\u00a0 0.\u0662\uff19" : 0.29 *)
Definition mixed_029 : pystr := [160; 48; 46; 1634; 65305].
Example C107_example_unicode : unicode_ok some_unicode /\ means some_unicode (AText mixed_029) (Number false (IZR 29000000 / 100000000)) /\
  TryParse_any some_unicode (AText mixed_029) false = Ok (Some 28999999).
Proof.
  split; [|split; [|vm_compute; reflexivity]].
  - split; [|split; reflexivity]. intros c d. cbn [u_decimal some_unicode]. destruct ((1632 <=? c) && (c <=? 1641)) eqn:A; [intros E; assert (d = c - 1632) as -> by congruence; lia|].
    destruct ((65296 <=? c) && (c <=? 65305)) eqn:B; [intros E; assert (d = c - 65296) as -> by congruence; lia|discriminate].
  - apply (mn_text _ _ (str " 0.29")).
    + unfold mixed_029. change (str " 0.29") with [32; 48; 46; 50; 57]. repeat apply Forall2_cons; try apply Forall2_nil; unfold reads_char.
      1: right; left; repeat split; try reflexivity; lia.
      1-2: left; split; [lia|reflexivity].
      all: right; right; split; [lia|]; split; [reflexivity|]; eexists; split; reflexivity.
    + replace (IZR 29000000 / 100000000)%R with ((if false then -1 else 1) * IZR (decimal_number (str "0" ++ str "29")) * powerRZ 10 (0 - zlen (str "29")))%R.
      * change (str " 0.29") with (str " " ++ [] ++ (str "0" ++ str "." ++ str "29") ++ [] ++ []). apply ft_number; [repeat constructor|constructor|constructor| |constructor].
        apply mt_both; [apply dp_last; unfold digit_code; cbn; lia|]. apply dp_next; [unfold digit_code; cbn; lia|apply dp_last; unfold digit_code; cbn; lia].
      * change (decimal_number (str "0" ++ str "29")) with 29. change (0 - zlen (str "29")) with (-2). change (powerRZ 10 (-2)) with (/ (10 * (10 * 1)))%R. rewrite ?Rmult_1_l. lra.
Qed.
Example C107_example : let t s := TryParse_any some_unicode (AText (str s)) in
  t "1_000.5e-1"%string false = Ok (Some 10005000000) /\ t "1__0"%string false = Ok None /\ t ".5"%string true = Ok (Some 50000000) /\
  t "-0.0"%string true = Ok (Some 0) /\ t "."%string false = Ok None /\ t "0x10"%string false = Ok None /\ t " +InFinity "%string false = Raise OverflowError /\
  t "-inf"%string true = Ok None /\ t "-nan"%string true = Raise ValueError /\ t "1e301"%string false = Raise OverflowError /\
  TryParse_any some_unicode (ADecimal (mkDec false 29 (-2))) false = Ok (Some 28999999) /\ TryParse_any some_unicode (ABytes ([x37])) false = Ok (Some 700000000).
Proof. repeat split; vm_compute; reflexivity. Qed.
