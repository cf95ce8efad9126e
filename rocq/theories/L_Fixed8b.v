(** * L_Fixed8b: FromDecimal and TryParse *)
From Coq Require Import String Reals Lia Lra ZifyBool ZifyNat.
From Flocq Require Import Core.
From Flocq Require Import BinarySingleNaN.
From Coq Require Import Floats.SpecFloat.
From Verif Require Import M_Py M_Float M_Fixed8 S_Float S_Fixed8 L_Float L_Fixed8 L_Bytes.
Open Scope Z_scope.
Local Instance Hprec : FLX.Prec_gt_0 53 := eq_refl _.

Lemma F_D_is : float_is F_D 100000000.
Proof.
  split; [reflexivity|]. split; [reflexivity|]. unfold SF2R, F_D, F2R, Fnum, Fexp, cond_Zopp.
  change (bpow radix2 (-26)) with (/ 67108864)%R. lra.
Qed.

(** int(f * D) *)
Lemma times_D f x : float_is f x ->
  (~ overflows (x * 100000000) -> py_int (fmul f F_D) = Ok (Ztrunc (rnd64 (x * 100000000)))) /\
  (overflows (x * 100000000) -> py_int (fmul f F_D) = Raise OverflowError).
Proof.
  intros (Hf & Hv & Hx). destruct F_D_is as (_ & HvD & HxD). destruct f as [s|s| |s m e]; try discriminate.
  - assert (E : rnd64 (x * 100000000) = 0%R). { rewrite <- Hx. cbn [SF2R]. rewrite Rmult_0_l. unfold rnd64. apply round_0. auto with typeclass_instances. }
    unfold overflows. rewrite E. split; intros H.
    + rewrite (Ztrunc_IZR 0). reflexivity.
    + exfalso. rewrite Rabs_R0 in H. pose proof (bpow_gt_0 radix2 1024). lra.
  - pose proof (mul_rounded s m e false 6710886400000000 (-26) Hv HvD) as [V R].
    change (S754_finite false 6710886400000000 (-26)) with F_D in *. rewrite HxD, Hx in R.
    destruct R as [(H1 & H2 & H3 & H4)|[H1 H2]].
    + split; [intros _|unfold overflows; lra]. apply py_int_spec. repeat split; assumption.
    + split; [tauto|intros _]. rewrite H2. reflexivity.
Qed.
Lemma times_D_inf s : py_int (fmul (S754_infinity s) F_D) = Raise OverflowError.
Proof. reflexivity. Qed.
Lemma times_D_nan : py_int (fmul S754_nan F_D) = Raise ValueError.
Proof. reflexivity. Qed.

(** ** one satoshi *)
Lemma rel_err x : (/ 1000000000 <= x)%R -> (Rabs (rnd64 x - x) <= x * / 9007199254740992)%R.
Proof.
  intros H. pose proof (rnd64_err x) as E. assert (U : (ulp radix2 (FLT_exp (-1074) 53) x <= x * bpow radix2 (-52))%R).
  { rewrite <- (Rabs_right x) at 2 by lra. apply ulp_rel. rewrite Rabs_right by lra. apply Rle_trans with (2 := H).
    apply Rle_trans with (bpow radix2 (-30)); [apply bpow_le; lia|]. change (bpow radix2 (-30)) with (/ 1073741824)%R. lra. }
  rewrite bpow_m52 in U. lra.
Qed.
Lemma one_satoshi_real n : 1 <= n < 2 ^ 52 ->
  (IZR n - 1 < rnd64 (rnd64 (IZR n / 100000000) * 100000000) < IZR n + 1)%R.
Proof.
  intros Hn. assert (N1 : (1 <= IZR n)%R) by (apply IZR_le; lia). assert (N2 : (IZR n <= 4503599627370495)%R) by (apply IZR_le; lia).
  set (q := (IZR n / 100000000)%R). assert (Hq : (q * 100000000 = IZR n)%R) by (unfold q; field).
  pose proof (rel_err q ltac:(lra)) as E1. set (x := rnd64 q) in *. apply Rabs_le_inv in E1.
  pose proof (rel_err (x * 100000000) ltac:(lra)) as E2. apply Rabs_le_inv in E2. lra.
Qed.
Lemma one_satoshi n : Z.abs n < 2 ^ 52 -> at_most_one_short (Ztrunc (rnd64 (rnd64 (IZR n / 100000000) * 100000000))) n.
Proof.
  intros Hn. unfold at_most_one_short. destruct (Z.lt_trichotomy n 0) as [L|[->|L]].
  - pose proof (one_satoshi_real (- n) ltac:(lia)) as H. rewrite opp_IZR in H.
    replace (- IZR n / 100000000)%R with (- (IZR n / 100000000))%R in H by (unfold Rdiv; ring).
    rewrite rnd64_opp in H. rewrite <- Ropp_mult_distr_l in H. rewrite rnd64_opp in H.
    set (y := rnd64 (rnd64 (IZR n / 100000000) * 100000000)) in *.
    assert (Hn1 : (IZR n <= -1)%R) by (apply IZR_le; lia).
    rewrite Ztrunc_ceil by lra. replace (Z.sgn n) with (-1) by lia.
    assert (Zceil y <= n + 1) by (apply Zceil_glb; rewrite plus_IZR; lra).
    assert (n - 1 < Zceil y); [|lia]. apply lt_IZR. rewrite minus_IZR. pose proof (Zceil_ub y). lra.
  - left. unfold Rdiv. rewrite Rmult_0_l. assert (Z0 : rnd64 0 = 0%R) by (unfold rnd64; apply round_0; auto with typeclass_instances).
    rewrite Z0, Rmult_0_l, Z0. apply (Ztrunc_IZR 0).
  - pose proof (one_satoshi_real n ltac:(lia)) as H. set (y := rnd64 (rnd64 (IZR n / 100000000) * 100000000)) in *.
    assert (Hn1 : (1 <= IZR n)%R) by (apply IZR_le; lia).
    rewrite Ztrunc_floor by lra. replace (Z.sgn n) with 1 by lia.
    assert (n - 1 <= Zfloor y) by (apply Zfloor_lub; rewrite minus_IZR; lra).
    assert (Zfloor y < n + 1); [|lia]. apply lt_IZR. rewrite plus_IZR. pose proof (Zfloor_lb y). lra.
Qed.
Lemma small_no_overflow x : (Rabs x <= IZR (2 ^ 53))%R -> ~ overflows x.
Proof.
  intros Q O. unfold overflows in O. pose proof bpow_1024_big.
  assert (Rabs (rnd64 x) <= IZR (2 ^ 53))%R; [|lra].
  apply Rabs_le. apply Rabs_le_inv in Q. rewrite <- opp_IZR. split; [apply rnd64_ge; [lia|rewrite opp_IZR; lra]|apply rnd64_le; [lia|lra]].
Qed.
Lemma nearest_times_D f n : Z.abs n < 2 ^ 52 -> float_is f (rnd64 (IZR n / 100000000)) ->
  exists r, py_int (fmul f F_D) = Ok r /\ at_most_one_short r n.
Proof.
  intros Hn Hf. eexists. split; [|apply (one_satoshi n Hn)]. apply (proj1 (times_D _ _ Hf)). apply small_no_overflow.
  assert (Hb : (Rabs (rnd64 (IZR n / 100000000)) <= 67108864)%R).
  { assert ((Rabs (IZR n / 100000000) <= 67108864)%R).
    { unfold Rdiv. rewrite Rabs_mult, <- abs_IZR, (Rabs_right (/ 100000000)) by lra.
      assert (IZR (Z.abs n) <= 4503599627370496)%R by (apply IZR_le; lia). lra. }
    apply Rabs_le_inv in H. apply Rabs_le.
    split; [apply (rnd64_ge (-67108864)); [lia|lra]|apply rnd64_le; [lia|lra]]. }
  rewrite Rabs_mult, (Rabs_right 100000000) by lra. assert (6710886400000000 <= IZR (2 ^ 53))%R by (apply IZR_le; lia). lra.
Qed.

(** whole units *)
Lemma whole_format k : Z.abs k * 390625 <= 2 ^ 53 -> rnd64 (IZR k * 100000000) = IZR (k * D).
Proof.
  intros H. replace (IZR k * 100000000)%R with (IZR (k * D)) by (rewrite mult_IZR; reflexivity).
  apply round_generic; [auto with typeclass_instances|].
  destruct (Z.eq_dec (Z.abs k * 390625) (2 ^ 53)) as [E|E]; [exfalso; lia|].
  apply generic_format_FLT. exists (Float radix2 (k * 390625) 8).
  - unfold F2R, Fnum, Fexp. change (bpow radix2 8) with (IZR 256). rewrite <- mult_IZR. f_equal. unfold D. ring.
  - change (Zpower radix2 53) with (2 ^ 53). cbn [Fnum]. rewrite Z.abs_mul. lia.
  - cbn. lia.
Qed.
Lemma whole_no_overflow k : Z.abs k <= 2 ^ 53 -> ~ overflows (IZR k * 100000000).
Proof.
  intros H O. unfold overflows in O.
  assert (Q : (Rabs (IZR k * 100000000) <= bpow radix2 100)%R).
  { rewrite Rabs_mult, <- abs_IZR, (Rabs_right 100000000) by lra. change (bpow radix2 100) with (IZR (2 ^ 100)).
    rewrite <- mult_IZR. apply IZR_le. lia. }
  assert (Rabs (rnd64 (IZR k * 100000000)) <= bpow radix2 100)%R.
  { apply abs_round_le_generic; [auto with typeclass_instances..| |exact Q]. apply generic_format_bpow. unfold FLT_exp. lia. }
  assert (bpow radix2 100 < bpow radix2 1024)%R by (apply bpow_lt; lia). lra.
Qed.
Lemma whole_times_D f k : Z.abs k * 390625 <= 2 ^ 53 -> float_is f (IZR k) -> py_int (fmul f F_D) = Ok (k * D).
Proof.
  intros H F. rewrite (proj1 (times_D _ _ F)) by (apply whole_no_overflow; lia). rewrite whole_format by exact H. rewrite Ztrunc_IZR. reflexivity.
Qed.

(** ** float(int) *)
Lemma float_of_int_spec z : z <> 0 ->
  (exists f, float_of_int z = Ok f /\ float_is f (rnd64 (IZR z)) /\ ftruthy f = true) \/ (overflows (IZR z) /\ float_of_int z = Raise OverflowError).
Proof.
  intros Hz. destruct (int_rounded z Hz) as [V R]. unfold float_of_int, fprec, femax.
  destruct (SpecFloat.binary_normalize 53 1024 z 0 false) as [s|s| |s m e] eqn:E, R as [(H1 & H2 & H3 & H4)|[H1 H2]]; try discriminate.
  - exfalso. cbn in H2. assert (Rabs (IZR z) <= 0)%R; [|rewrite <- abs_IZR in H; apply le_IZR in H; lia].
    assert (A : (1 <= Rabs (IZR z))%R) by (rewrite <- abs_IZR; apply IZR_le; lia).
    assert (B : (1 <= Rabs (rnd64 (IZR z)))%R).
    { apply abs_round_ge_generic; [auto with typeclass_instances..|apply (int_format 1); lia|exact A]. }
    rewrite <- H2, Rabs_R0 in B. lra.
  - right. auto.
  - left. eexists. split; [reflexivity|]. repeat split; assumption.
Qed.

(** ** text *)
Lemma take_digits_app d r : Forall digit_code d -> match r with c :: _ => ~ digit_code c | [] => True end ->
  take_digits (d ++ r) = (d, r).
Proof.
  intros Hd Hr. induction Hd as [|c d Hc Hd IH]; cbn [app take_digits].
  - destruct r as [|c r]; [reflexivity|]. cbn [take_digits]. replace (is_digit c) with false; [reflexivity|]. unfold is_digit, digit_code in *. lia.
  - replace (is_digit c) with true by (unfold is_digit, digit_code in *; lia). rewrite IH. reflexivity.
Qed.
Definition ordinary (c : Z) : Prop := is_space c = false /\ c <> 95.
Lemma drop_spaces_ordinary s : Forall ordinary s -> drop_spaces s = s.
Proof. intros H. destruct H as [|c s [Hc _] _]; [reflexivity|]. cbn. rewrite Hc. reflexivity. Qed.
Lemma strip_ordinary s : Forall ordinary s -> strip s = s.
Proof.
  intros H. unfold strip. rewrite (drop_spaces_ordinary s H). rewrite (drop_spaces_ordinary (rev s)) by (apply Forall_rev, H). apply rev_involutive.
Qed.
Lemma drop_underscores_ordinary s : Forall ordinary s -> forall b, drop_underscores b s = Some s.
Proof.
  intros H. induction H as [|c s [_ Hc] Hs IH]; intros b; [reflexivity|]. cbn [drop_underscores].
  replace (c =? 95) with false by lia. rewrite IH. reflexivity.
Qed.
Lemma digit_ordinary c : digit_code c -> ordinary c.
Proof. unfold digit_code, ordinary, is_space. lia. Qed.
Lemma digits_ordinary l : Forall digit_code l -> Forall ordinary l.
Proof. apply Forall_impl, digit_ordinary. Qed.

Lemma plain_ordinary neg ip fp s : plain_decimal neg ip fp s -> Forall ordinary s.
Proof.
  intros (_ & Hi & Hf & Hs). assert (P : Forall ordinary (str ".")) by (constructor; [unfold ordinary, is_space; cbn; lia|constructor]).
  assert (N : Forall ordinary (if neg then str "-" else [])) by (destruct neg; [constructor; [unfold ordinary, is_space; cbn; lia|constructor]|constructor]).
  assert (Fi := digits_ordinary _ Hi). assert (Ff := digits_ordinary _ Hf).
  destruct Hs as [->|[-> ->]].
  - apply Forall_app. split; [exact N|]. apply Forall_app. split; [exact Fi|]. apply Forall_app. split; assumption.
  - apply Forall_app. split; assumption.
Qed.
Lemma take_sign_digits (neg : bool) c r : digit_code c -> take_sign ((if neg then str "-" else []) ++ c :: r) = (neg, c :: r).
Proof. intros H. unfold digit_code in H. destruct neg; cbn; [reflexivity|]. replace (c =? 45) with false by lia. replace (c =? 43) with false by lia. reflexivity. Qed.
Lemma plain_parse neg ip fp s : plain_decimal neg ip fp s ->
  parse_decimal s = Some (neg, decimal_number (ip ++ fp), 10 ^ zlen fp).
Proof.
  intros (Hne & Hi & Hf & Hs). destruct ip as [|c ip]; [congruence|].
  assert (E : forall s3, ((c :: ip) ++ s3 = ip) -> False) by (intros s3 E; apply (f_equal (@length Z)) in E; rewrite app_length in E; cbn in E; lia).
  unfold parse_decimal. pose proof (zlen_nonneg fp) as Hz.
  destruct Hs as [->|[-> ->]].
  - rewrite <- app_comm_cons. rewrite (take_sign_digits neg c) by (inversion Hi; assumption). rewrite app_comm_cons.
    rewrite take_digits_app by (assumption || (cbn; unfold digit_code; lia)). change (str "." ++ fp) with (46 :: fp). change (46 =? 46) with true.
    cbv iota. rewrite <- (app_nil_r fp) at 1. rewrite take_digits_app by (assumption || exact I). cbn [app Z.eqb Pos.eqb parse_exp].
    rewrite (Z.max_l 0) by lia. rewrite Z.pow_0_r, Z.mul_1_r. rewrite Z.max_r by lia.
    replace (- (0 - zlen fp)) with (zlen fp) by lia. reflexivity.
  - rewrite (take_sign_digits neg c) by (inversion Hi; assumption). rewrite <- (app_nil_r (c :: ip)) at 1.
    rewrite take_digits_app by (assumption || exact I). rewrite app_nil_r. cbn [app parse_exp]. change (zlen (@nil Z)) with 0. cbn [Z.sub Z.max Z.opp Z.pow].
    rewrite Z.mul_1_r. reflexivity.
Qed.
Lemma float_of_fraction_spec neg n d : 0 <= n -> 0 < d ->
  rounded (float_of_fraction neg n d) neg ((if neg then -1 else 1) * (IZR n / IZR d)).
Proof.
  intros Hn Hd. destruct n as [|n|n]; [|destruct d as [|d|d]; [lia|apply ratio_rounded|lia]|lia].
  split; [reflexivity|]. left. assert (E : rnd64 ((if neg then -1 else 1) * (0 / IZR d)) = 0%R).
  { unfold Rdiv. rewrite Rmult_0_l, Rmult_0_r. unfold rnd64. apply round_0. auto with typeclass_instances. }
  rewrite E, Rabs_R0. split; [apply bpow_gt_0|]. repeat split.
Qed.
Lemma plain_text neg ip fp s : plain_decimal neg ip fp s ->
  float_of_text s = Some (float_of_fraction neg (decimal_number (ip ++ fp)) (10 ^ zlen fp)).
Proof.
  intros H. unfold float_of_text. rewrite strip_ordinary by (eapply plain_ordinary, H).
  rewrite drop_underscores_ordinary by (eapply plain_ordinary, H). rewrite (plain_parse _ _ _ _ H). reflexivity.
Qed.
Lemma decimal_number_app a b : decimal_number (a ++ b) = fold_left (fun n c => 10 * n + (c - 48)) b (decimal_number a).
Proof. apply fold_left_app. Qed.
Lemma decimal_number_nonneg_aux l : Forall digit_code l -> forall a, 0 <= a -> 0 <= fold_left (fun n c => 10 * n + (c - 48)) l a.
Proof. intros H. induction H as [|c l Hc Hl IH]; intros a Ha; [exact Ha|]. cbn [fold_left]. apply IH. unfold digit_code in Hc. lia. Qed.
Lemma decimal_number_nonneg l : Forall digit_code l -> 0 <= decimal_number l.
Proof. intros H. apply decimal_number_nonneg_aux; [exact H|lia]. Qed.

(** int(text) succeeds only where float(text) does *)
Lemma take_digits_split s d r : take_digits s = (d, r) -> s = d ++ r /\ Forall digit_code d.
Proof.
  revert d r. induction s as [|c s IH]; intros d r H; cbn in H; [injection H as <- <-; auto|].
  destruct (is_digit c) eqn:E.
  - destruct (take_digits s) as [d' r']. injection H as <- <-. destruct (IH _ _ eq_refl) as [-> F]. split; [reflexivity|].
    constructor; [unfold is_digit, digit_code in *; lia|exact F].
  - injection H as <- <-. auto.
Qed.
Lemma ratio_truthy s n d : (Zpos d <= Zpos n)%Z -> ftruthy (float_of_ratio s n d) = true.
Proof.
  intros H. destruct (ratio_rounded s n d) as [V R]. destruct (float_of_ratio s n d) as [s'|s'| |s' m e] eqn:E; try reflexivity.
  exfalso. destruct R as [(H1 & H2 & _)|[_ H2]]; [|discriminate]. cbn in H2.
  assert (Hd : (0 < IZR (Zpos d))%R) by (apply IZR_lt; lia). apply IZR_le in H.
  assert (A : (1 <= Rabs ((if s then -1 else 1) * (IZR (Zpos n) / IZR (Zpos d))))%R).
  { rewrite Rabs_mult. replace (Rabs (if s then -1 else 1)) with 1%R by (destruct s; [rewrite Rabs_left by lra; lra|rewrite Rabs_right; lra]).
    rewrite Rmult_1_l. assert (1 <= IZR (Zpos n) / IZR (Zpos d))%R.
    { apply Rmult_le_reg_r with (IZR (Zpos d)); [exact Hd|]. unfold Rdiv. rewrite Rmult_assoc, Rinv_l by lra. lra. }
    rewrite Rabs_right; lra. }
  assert (B : (1 <= Rabs (rnd64 ((if s then -1 else 1) * (IZR (Zpos n) / IZR (Zpos d)))))%R).
  { apply abs_round_ge_generic; [auto with typeclass_instances..|apply (int_format 1); lia|exact A]. }
  rewrite <- H2, Rabs_R0 in B. lra.
Qed.
Lemma int_text_float_text s z : int_of_text s = Some z -> exists f, float_of_text s = Some f /\ (ftruthy f = false -> z = 0).
Proof.
  unfold int_of_text, float_of_text. destruct (drop_underscores false (strip s)) as [t|]; [|discriminate]. unfold parse_decimal.
  destruct (take_sign t) as [neg s1]. destruct (take_digits s1) as [d r] eqn:E. apply take_digits_split in E as [_ Fd].
  destruct d as [|c d]; [discriminate|]. destruct r as [|x r]; [|discriminate]. intros H.
  assert (Hz : z = cond_neg neg (dec_value (c :: d))) by congruence. cbn [app]. rewrite app_nil_r. cbn [parse_exp].
  change (zlen (@nil Z)) with 0. cbn [Z.sub Z.max Z.opp Z.pow]. rewrite Z.mul_1_r.
  eexists. split; [reflexivity|]. assert (Nn : 0 <= dec_value (c :: d)) by (apply (decimal_number_nonneg (c :: d)), Fd).
  rewrite Hz. destruct (dec_value (c :: d)) as [|p|p]; [destruct neg; reflexivity| |lia].
  cbn [float_of_fraction]. change (10 ^ Z.max 0 (- (0 - 0))) with 1. cbv iota. rewrite ratio_truthy by lia. discriminate.
Qed.

(** TryParse of a text is decided by float(text) *)
Lemma TryParse_text s rp : TryParse (PText s) rp =
  match float_of_text s with
  | None => Ok None
  | Some f => if rp && fneg f then Ok None else do r <- py_int (fmul f F_D); Ok (Some r)
  end.
Proof.
  unfold TryParse, second_try. destruct (float_of_text s) as [f|] eqn:E.
  - destruct (ftruthy f) eqn:T; [reflexivity|]. destruct (int_of_text s) as [z|] eqn:I; [|reflexivity].
    destruct (int_text_float_text s z I) as (f' & E' & Hz). assert (f' = f) as -> by congruence. rewrite (Hz T).
    destruct f as [sg|sg| |sg m e]; try discriminate. destruct rp, sg; reflexivity.
  - destruct (int_of_text s) as [z|] eqn:I; [|reflexivity]. destruct (int_text_float_text s z I) as (f & Hf & _). congruence.
Qed.

Lemma pow10_split k : 0 <= k <= 8 -> 10 ^ (8 - k) * 10 ^ k = D.
Proof. intros H. rewrite <- Z.pow_add_r by lia. replace (8 - k + k) with 8 by lia. reflexivity. Qed.
Lemma fneg_sign f x : float_is f x -> fneg f = true <-> (x < 0)%R.
Proof.
  intros (Hf & _ & <-). destruct f as [s|s| |s m e]; try discriminate; cbn [SF2R].
  - unfold fneg, SFltb. cbn. split; [discriminate|lra].
  - unfold fneg, SFltb. cbn. destruct s; cbn.
    + split; [intros _|reflexivity]. apply F2R_lt_0. cbn. lia.
    + split; [discriminate|]. intros H. assert (0 <= F2R (Float radix2 (Z.pos m) e))%R by (apply F2R_ge_0; cbn; lia). lra.
Qed.

Lemma TryParse_plain neg ip fp s : plain_decimal neg ip fp s -> zlen fp <= 8 ->
  let n := cond_neg neg (satoshi_of ip fp) in Z.abs n < 2 ^ 52 ->
  exists r, TryParse (PText s) false = Ok (Some r) /\ at_most_one_short r n.
Proof.
  intros Hs Hl n Hn. assert (Hp : 0 <= decimal_number (ip ++ fp)) by (apply decimal_number_nonneg, Forall_app; split; apply Hs).
  rewrite TryParse_text, (plain_text _ _ _ _ Hs). cbn [andb].
  pose proof (zlen_nonneg fp) as Hz. assert (H10 : 0 < 10 ^ zlen fp) by (apply Z.pow_pos_nonneg; lia).
  pose proof (float_of_fraction_spec neg _ _ Hp H10) as R.
  replace ((if neg then -1 else 1) * (IZR (decimal_number (ip ++ fp)) / IZR (10 ^ zlen fp)))%R with (IZR n / 100000000)%R in R.
  2:{ unfold n, satoshi_of. assert (IZR (10 ^ zlen fp) <> 0%R) by (apply IZR_neq; lia).
      assert (E : IZR (10 ^ (8 - zlen fp)) = (100000000 / IZR (10 ^ zlen fp))%R).
      { apply Rmult_eq_reg_r with (IZR (10 ^ zlen fp)); [|assumption]. rewrite <- mult_IZR, pow10_split by lia. unfold D. field. assumption. }
      destruct neg; cbn [cond_neg]; [rewrite opp_IZR|]; rewrite mult_IZR, E; field; assumption. }
  set (f := float_of_fraction neg (decimal_number (ip ++ fp)) (10 ^ zlen fp)) in *.
  assert (F : float_is f (rnd64 (IZR n / 100000000))).
  { destruct R as [V [(R1 & R2 & R3 & R4)|[O _]]]; [repeat split; assumption|]. exfalso. revert O. apply small_no_overflow.
    unfold Rdiv. rewrite Rabs_mult, <- abs_IZR, (Rabs_right (/ 100000000)) by lra.
    assert (IZR (Z.abs n) <= IZR (2 ^ 53))%R by (apply IZR_le; lia). assert (0 <= IZR (Z.abs n))%R by (apply IZR_le; lia). lra. }
  destruct (nearest_times_D f n Hn F) as (r & -> & Hr). exists r. split; [reflexivity|exact Hr].
Qed.
(** whole numbers are exact *)
Lemma TryParse_whole neg ip s : plain_decimal neg ip [] s -> decimal_number ip * 390625 <= 2 ^ 53 ->
  TryParse (PText s) false = Ok (Some (cond_neg neg (decimal_number ip) * D)).
Proof.
  intros Hs Hn. pose proof (decimal_number_nonneg ip ltac:(apply Hs)) as Hp. rewrite TryParse_text, (plain_text _ _ _ _ Hs). cbn [andb].
  rewrite app_nil_r. change (10 ^ zlen (@nil Z)) with 1. pose proof (float_of_fraction_spec neg _ 1 Hp ltac:(lia)) as R.
  replace ((if neg then -1 else 1) * (IZR (decimal_number ip) / 1))%R with (IZR (cond_neg neg (decimal_number ip))) in R
    by (destruct neg; cbn [cond_neg]; [rewrite opp_IZR|]; field).
  set (k := cond_neg neg (decimal_number ip)) in *. assert (Hk : Z.abs k * 390625 <= 2 ^ 53) by (unfold k; destruct neg; cbn [cond_neg]; lia).
  assert (Er : rnd64 (IZR k) = IZR k) by (apply rnd64_int; lia).
  set (f := float_of_fraction neg (decimal_number ip) 1) in *.
  assert (F : float_is f (IZR k)).
  rewrite <- Er.
  { destruct R as [V [(R1 & R2 & R3 & R4)|[O _]]]; [repeat split; assumption|]. exfalso. revert O. apply small_no_overflow. rewrite <- abs_IZR. apply IZR_le. lia. }
  rewrite (whole_times_D f k Hk F). reflexivity.
Qed.

(** ** int arguments *)
Lemma TryParse_int z rp : Z.abs z * 390625 <= 2 ^ 53 -> TryParse (PInt z) rp = Ok (if rp && (z <? 0) then None else Some (z * D)).
Proof.
  intros Hz. unfold TryParse, second_try. destruct (Z.eq_dec z 0) as [->|Nz]; [destruct rp; reflexivity|].
  destruct (float_of_int_spec z Nz) as [(f & -> & F & T)|[O _]].
  - cbn [res_opt]. rewrite T. cbn [finish_parse]. rewrite rnd64_int in F by lia.
    assert (fneg f = (z <? 0)) as ->.
    { apply Bool.eq_iff_eq_true. rewrite (fneg_sign _ _ F). rewrite Z.ltb_lt. split; [apply lt_IZR|apply IZR_lt]. }
    destruct (rp && (z <? 0)); [reflexivity|]. rewrite (whole_times_D f z Hz F). reflexivity.
  - exfalso. revert O. apply small_no_overflow. rewrite <- abs_IZR. apply IZR_le. lia.
Qed.

(** ** decimal.Decimal *)
Lemma dec_digits_aux_spec fuel : forall c, 0 <= c < 2 ^ Z.of_nat (S fuel) -> 1 <= dec_digits_aux fuel c /\ c < 10 ^ dec_digits_aux fuel c /\
  (c = 0 \/ 10 ^ (dec_digits_aux fuel c - 1) <= c).
Proof.
  induction fuel as [|k IH]; intros c Hc.
  - cbn. change (2 ^ Z.of_nat 1) with 2 in Hc. split; [lia|]. cbn. lia.
  - cbn [dec_digits_aux]. destruct (c <? 10) eqn:E; [cbn; lia|].
    assert (Hk : 0 <= c / 10 < 2 ^ Z.of_nat (S k)).
    { rewrite Nat2Z.inj_succ, Z.pow_succ_r in Hc by lia. split; [apply Z.div_pos; lia|]. apply Z.div_lt_upper_bound; lia. }
    destruct (IH (c / 10) Hk) as (H1 & H2 & H3). set (d := dec_digits_aux k (c / 10)) in *. pose proof (Z.div_mod c 10 ltac:(lia)). pose proof (Z.mod_pos_bound c 10 ltac:(lia)).
    split; [lia|]. replace (1 + d - 1) with (Z.succ (d - 1)) by lia. replace (1 + d) with (Z.succ d) by lia. rewrite !Z.pow_succ_r by lia. split; [lia|]. right. lia.
Qed.
Lemma dec_digits_spec c : 0 <= c -> 1 <= dec_digits c /\ c < 10 ^ dec_digits c /\ (c = 0 \/ 10 ^ (dec_digits c - 1) <= c).
Proof.
  intros H. apply dec_digits_aux_spec. split; [exact H|]. destruct (Z.eq_dec c 0) as [->|N]; [reflexivity|].
  pose proof (Z.log2_spec c ltac:(lia)). rewrite Nat2Z.inj_succ, Z2Nat.id by apply Z.log2_nonneg. lia.
Qed.
Lemma dec_digits_le c k : 0 <= c < 10 ^ k -> 1 <= k -> dec_digits c <= k.
Proof.
  intros H Hk. destruct (dec_digits_spec c ltac:(lia)) as (H1 & _ & [H3|H3]); [subst; cbn; lia|].
  destruct (Z.le_gt_cases (dec_digits c) k) as [L|L]; [exact L|]. assert (10 ^ k <= 10 ^ (dec_digits c - 1)) by (apply Z.pow_le_mono_r; lia). lia.
Qed.
(** the range check looks at the value *)
Lemma pow10_le c j : 0 < c -> 0 <= dec_digits c - 1 -> (10 ^ j <= c <-> j <= dec_digits c - 1).
Proof.
  intros Hc Hd. destruct (dec_digits_spec c ltac:(lia)) as (H1 & H2 & [H3|H3]); [lia|]. split; intros H.
  - destruct (Z.le_gt_cases j (dec_digits c - 1)) as [L|L]; [exact L|]. assert (10 ^ dec_digits c <= 10 ^ j) by (apply Z.pow_le_mono_r; lia). lia.
  - apply Z.le_trans with (10 ^ (dec_digits c - 1)); [|exact H3]. apply Z.pow_le_mono_r; lia.
Qed.
Lemma dec_check_spec x N : 0 <= d_coef x -> N = 1000000 -> dec_check x = if Z.abs (int_of_dec x) <? 10 ^ N then Ok x else Raise DecimalOverflow.
Proof.
  destruct x as [s c e]. cbn [d_coef]. intros Hc EN. assert (HN : 0 <= N) by lia. unfold dec_check. cbn [d_coef d_exp]. replace (999999 <? dec_digits c - 1 + e) with (N <=? dec_digits c - 1 + e) by (subst N; lia). clear EN.
  assert (P : 0 < 10 ^ N) by (apply Z.pow_pos_nonneg; lia).
  set (v := if 0 <=? e then c * 10 ^ e else c / 10 ^ (- e)).
  assert (V : Z.abs (int_of_dec (mkDec s c e)) = v).
  { unfold int_of_dec. cbn [d_sign d_exp d_coef]. fold v. assert (0 <= v); [|unfold cond_neg; destruct s; lia]. unfold v. destruct (0 <=? e) eqn:E; [apply Z.mul_nonneg_nonneg; [lia|apply Z.pow_nonneg; lia]|apply Z.div_pos; [lia|apply Z.pow_pos_nonneg; lia]]. }
  rewrite V. clear V. destruct (Z.eq_dec c 0) as [->|Nc].
  { replace v with 0 by (unfold v; destruct (0 <=? e); [reflexivity|rewrite Zdiv_0_l; reflexivity]). replace (0 <? 10 ^ N) with true by lia. reflexivity. }
  replace (c =? 0) with false by lia. cbn [negb andb]. destruct (dec_digits_spec c Hc) as (H1 & _).
  assert (Q : 10 ^ N <= v <-> N <= dec_digits c - 1 + e).
  { unfold v. destruct (0 <=? e) eqn:E.
    - destruct (Z.le_gt_cases e N) as [L|L].
      + replace N with (N - e + e) at 1 by lia. rewrite Z.pow_add_r by lia. rewrite <- Z.mul_le_mono_pos_r by (apply Z.pow_pos_nonneg; lia). rewrite pow10_le by lia. lia.
      + split; intros _; [lia|]. apply Z.le_trans with (10 ^ e); [apply Z.pow_le_mono_r; lia|]. assert (0 < 10 ^ e) by (apply Z.pow_pos_nonneg; lia). nia.
    - assert (T : 10 ^ N <= c / 10 ^ (- e) <-> 10 ^ (N - e) <= c).
      { assert (0 < 10 ^ (- e)) by (apply Z.pow_pos_nonneg; lia). replace (N - e) with (- e + N) by lia. rewrite Z.pow_add_r by lia. split; intros H0.
        - apply Z.le_trans with (10 ^ (- e) * (c / 10 ^ (- e))); [apply Z.mul_le_mono_nonneg_l; lia|apply Z.mul_div_le; lia].
        - apply Z.div_le_lower_bound; lia. }
      rewrite T, pow10_le by lia. lia. }
  destruct (N <=? dec_digits c - 1 + e) eqn:B.
  - replace (v <? 10 ^ N) with false by lia. reflexivity.
  - replace (v <? 10 ^ N) with true by lia. reflexivity.
Qed.
Lemma round_half_even_nonneg n k : 0 <= n -> 0 <= k -> 0 <= round_half_even n k.
Proof.
  intros Hn Hk. unfold round_half_even. assert (0 <= n / 10 ^ k) by (apply Z.div_pos; [exact Hn|apply Z.pow_pos_nonneg; lia]).
  repeat match goal with |- context [if ?b then _ else _] => destruct b end; lia.
Qed.
Lemma dec_mul_int_nonneg x n : 0 <= d_coef x -> 0 <= d_coef (dec_mul_int x n).
Proof.
  intros H. unfold dec_mul_int, dec_fix. cbn [d_coef]. assert (0 <= d_coef x * Z.abs n) by nia. set (c := d_coef x * Z.abs n) in *.
  destruct (dec_digits c - 28 <=? 0) eqn:E; [exact H0|]. pose proof (round_half_even_nonneg c (dec_digits c - 28) H0 ltac:(lia)).
  destruct (28 <? dec_digits (round_half_even c (dec_digits c - 28))); cbn [d_coef]; [apply Z.div_pos; lia|assumption].
Qed.
Lemma FromDecimal_dec_limit x : 0 <= d_coef x ->
  FromDecimal_dec x = if Z.abs (int_of_dec (dec_mul_int x D)) <? decimal_limit then Ok (int_of_dec (dec_mul_int x D)) else Raise DecimalOverflow.
Proof.
  intros H. unfold FromDecimal_dec. rewrite (dec_check_spec _ 1000000 (dec_mul_int_nonneg x D H) eq_refl). unfold decimal_limit. match goal with |- context [if ?b then _ else _] => destruct b end; reflexivity.
Qed.
(** the exact value times 10^j, for coefficients divisible by the dropped power *)
Lemma dec_times_exact s c e : 0 <= c < 10 ^ 28 -> -8 <= e ->
  int_of_dec (dec_mul_int (mkDec s c e) D) = cond_neg s (c * 10 ^ (8 + e)).
Proof.
  intros Hc He. unfold dec_mul_int, dec_fix. cbn [d_coef d_sign d_exp].
  assert (xorb s (D <? 0) = s) as -> by (destruct s; reflexivity). change (Z.abs D) with (10 ^ 8).
  set (k := dec_digits (c * 10 ^ 8) - 28). assert (Hk8 : k <= 8).
  { unfold k. assert (dec_digits (c * 10 ^ 8) <= 36); [|lia]. apply dec_digits_le; [|lia]. change (10 ^ 36) with (10 ^ 28 * 10 ^ 8). nia. }
  destruct (k <=? 0) eqn:Ek.
  - unfold int_of_dec. cbn [d_sign d_coef d_exp]. f_equal. destruct (0 <=? e) eqn:E.
    + rewrite Z.pow_add_r by lia. ring.
    + replace (10 ^ 8) with (10 ^ (8 + e) * 10 ^ (- e)) by (rewrite <- Z.pow_add_r by lia; f_equal; lia).
      rewrite Z.mul_assoc, Z.div_mul; [reflexivity|]. apply Z.pow_nonzero; lia.
  - assert (Hr : round_half_even (c * 10 ^ 8) k = c * 10 ^ (8 - k)).
    { unfold round_half_even. assert (P : 0 < 10 ^ k) by (apply Z.pow_pos_nonneg; lia).
      assert (E8 : c * 10 ^ 8 = c * 10 ^ (8 - k) * 10 ^ k) by (rewrite <- Z.mul_assoc, <- Z.pow_add_r by lia; do 2 f_equal; lia).
      rewrite E8, Z.mod_mul, Z.div_mul by lia. replace (2 * 0 <? 10 ^ k) with true by lia. reflexivity. }
    rewrite Hr. assert (Hd : dec_digits (c * 10 ^ (8 - k)) <= 28).
    { apply dec_digits_le; [|lia]. assert (P : 0 < 10 ^ k) by (apply Z.pow_pos_nonneg; lia).
      destruct (dec_digits_spec (c * 10 ^ 8) ltac:(lia)) as (_ & U & _). split; [apply Z.mul_nonneg_nonneg; [lia|apply Z.pow_nonneg; lia]|].
      apply Z.mul_lt_mono_pos_r with (10 ^ k); [exact P|]. rewrite <- Z.mul_assoc, <- !Z.pow_add_r by lia.
      replace (8 - k + k) with 8 by lia. replace (28 + k) with (dec_digits (c * 10 ^ 8)) by (unfold k; lia). exact U. }
    replace (28 <? dec_digits (c * 10 ^ (8 - k))) with false by lia.
    unfold int_of_dec. cbn [d_sign d_coef d_exp]. f_equal. destruct (0 <=? e + k) eqn:E.
    + rewrite <- Z.mul_assoc, <- Z.pow_add_r by lia. do 2 f_equal. lia.
    + replace (8 - k) with (8 + e + - (e + k)) by lia. rewrite (Z.pow_add_r 10 (8 + e)) by lia. rewrite Z.mul_assoc, Z.div_mul; [reflexivity|]. apply Z.pow_nonzero; lia.
Qed.

(** ** Decimals of any length *)
Lemma half_even_unique n k m : 0 < k -> 2 * Z.abs (n - m * 10 ^ k) <= 10 ^ k ->
  (2 * Z.abs (n - m * 10 ^ k) = 10 ^ k -> Z.Even m) -> round_half_even n k = m.
Proof.
  intros Hk H1 H2. unfold round_half_even. assert (P : 0 < 10 ^ k) by (apply Z.pow_pos_nonneg; lia).
  pose proof (Z.div_mod n (10 ^ k) ltac:(lia)) as E. pose proof (Z.mod_pos_bound n (10 ^ k) P) as B.
  set (q := n / 10 ^ k) in *. set (r := n mod 10 ^ k) in *. set (p := 10 ^ k) in *. clearbody q r p.
  assert (m = q \/ m = q + 1) as [-> | ->].
  { assert (-1 < m - q < 2) by (split; nia). lia. }
  - replace (n - q * p) with r in * by nia. destruct (2 * r <? p) eqn:A; [reflexivity|]. replace (p <? 2 * r) with false by lia.
    assert (Z.Even q) as Ev by (apply H2; lia). apply Z.even_spec in Ev. rewrite Ev. reflexivity.
  - replace (n - (q + 1) * p) with (r - p) in * by nia. replace (2 * r <? p) with false by lia. destruct (p <? 2 * r) eqn:A; [reflexivity|].
    assert (Z.Even (q + 1)) as Ev by (apply H2; lia). apply Z.even_spec in Ev. rewrite Z.add_1_r, Z.even_succ, <- Z.negb_even in Ev.
    destruct (Z.even q); [discriminate|]. lia.
Qed.
Lemma dec_digits_unique c k : 10 ^ k <= c < 10 ^ (k + 1) -> 0 <= k -> dec_digits c = k + 1.
Proof.
  intros H Hk. assert (0 < 10 ^ k) by (apply Z.pow_pos_nonneg; lia).
  assert (dec_digits c <= k + 1) by (apply dec_digits_le; lia).
  destruct (dec_digits_spec c ltac:(lia)) as (G1 & G2 & _).
  destruct (Z.le_gt_cases (k + 1) (dec_digits c)); [lia|].
  assert (10 ^ dec_digits c <= 10 ^ k) by (apply Z.pow_le_mono_r; lia). lia.
Qed.
Lemma dec_times_rounds s c e k m : 0 <= c ->
  (k = 0 /\ c * 10 ^ 8 < 10 ^ 28 /\ m = c * 10 ^ 8) \/
  (0 < k /\ 10 ^ (27 + k) <= c * 10 ^ 8 < 10 ^ (28 + k) /\ 2 * Z.abs (c * 10 ^ 8 - m * 10 ^ k) <= 10 ^ k /\
   (2 * Z.abs (c * 10 ^ 8 - m * 10 ^ k) = 10 ^ k -> Z.Even m)) ->
  int_of_dec (dec_mul_int (mkDec s c e) D) = cond_neg s (if 0 <=? e + k then m * 10 ^ (e + k) else m / 10 ^ (- (e + k))).
Proof.
  intros Hc H. unfold dec_mul_int, dec_fix. cbn [d_coef d_sign d_exp].
  assert (xorb s (D <? 0) = s) as -> by (destruct s; reflexivity). change (Z.abs D) with (10 ^ 8).
  destruct H as [(-> & H1 & ->)|(Hk & H1 & H2 & H3)].
  - assert (dec_digits (c * 10 ^ 8) <= 28) by (apply dec_digits_le; lia). replace (_ <=? 0) with true by lia.
    unfold int_of_dec. cbn [d_coef d_sign d_exp]. rewrite Z.add_0_r. reflexivity.
  - assert (dec_digits (c * 10 ^ 8) = 28 + k) as ->.
    { replace (28 + k) with (27 + k + 1) by lia. apply dec_digits_unique; [|lia]. replace (27 + k + 1) with (28 + k) by lia. exact H1. }
    replace (28 + k - 28) with k by lia. replace (k <=? 0) with false by lia.
    rewrite (half_even_unique _ _ m Hk H2 H3).
    assert (P : 0 < 10 ^ k) by (apply Z.pow_pos_nonneg; lia).
    assert (Hm : 10 ^ 27 <= m <= 10 ^ 28).
    { rewrite (Z.pow_add_r 10 27 k), (Z.pow_add_r 10 28 k) in H1 by lia. change (10 ^ 28) with (10 * 10 ^ 27) in *. revert H1 H2. generalize (10 ^ 27) (10 ^ k) (c * 10 ^ 8) P. clear. intros. split; nia. }
    unfold int_of_dec. destruct (28 <? dec_digits m) eqn:E; cbn [d_coef d_sign d_exp].
    + assert (m = 10 ^ 28) as ->. { destruct (Z.eq_dec m (10 ^ 28)); [assumption|]. assert (dec_digits m <= 28) by (apply dec_digits_le; lia). lia. }
      change (10 ^ 28 / 10) with (10 ^ 27). f_equal.
      destruct (0 <=? e + k) eqn:E0; destruct (0 <=? e + k + 1) eqn:E1; try lia.
      * rewrite (Z.pow_add_r 10 (e + k) 1) by lia. change (10 ^ 28) with (10 ^ 27 * 10). lia.
      * replace (e + k) with (-1) by lia. reflexivity.
      * change (10 ^ 28) with (10 * 10 ^ 27). replace (- (e + k)) with (1 + - (e + k + 1)) by lia.
        rewrite (Z.pow_add_r 10 1) by lia. change (10 ^ 1) with 10. rewrite Z.div_mul_cancel_l; [reflexivity|apply Z.pow_nonzero; lia|lia].
    + reflexivity.
Qed.
