(** * P_RandomKey: property C95, Helper.random_key *)
From Coq Require Import String Reals Lia Lra ZifyBool ZifyNat Floats.SpecFloat.
From Flocq Require Import Core BinarySingleNaN.
From Verif Require Import M_Py M_Float M_Hash M_Cli M_Fixed8Big M_RandomKey S_IO S_Float S_Fixed8 S_FloatRepr S_Cli.
From Verif Require Import L_Bytes L_Hex L_Utf8 L_Float L_Fixed8 L_Fixed8b L_FloatRepr2 P_Fixed8Big P_Cli.
Open Scope Z_scope.
Local Instance Hprec : FLX.Prec_gt_0 53 := eq_refl _.

(** ** the clock *)
Lemma F_MICRO_is : float_is F_MICRO 1000000.
Proof.
  split; [reflexivity|]. split; [reflexivity|]. unfold SF2R, F_MICRO, F2R, Fnum, Fexp, cond_Zopp.
  change (bpow radix2 (-33)) with (/ 8589934592)%R. lra.
Qed.
Lemma times_micro f x : float_is f x ->
  (~ overflows (x * 1000000) -> py_int (fmul f F_MICRO) = Ok (Ztrunc (rnd64 (x * 1000000)))) /\
  (overflows (x * 1000000) -> py_int (fmul f F_MICRO) = Raise OverflowError).
Proof.
  intros (Hf & Hv & Hx). destruct F_MICRO_is as (_ & HvD & HxD). destruct f as [s|s| |s m e]; try discriminate.
  - assert (E : rnd64 (x * 1000000) = 0%R). { rewrite <- Hx. cbn [SF2R]. rewrite Rmult_0_l. unfold rnd64. apply round_0. auto with typeclass_instances. }
    unfold overflows. rewrite E. split; intros H.
    + rewrite (Ztrunc_IZR 0). reflexivity.
    + exfalso. rewrite Rabs_R0 in H. pose proof (bpow_gt_0 radix2 1024). lra.
  - pose proof (mul_rounded s m e false 8589934592000000 (-33) Hv HvD) as [V R].
    change (S754_finite false 8589934592000000 (-33)) with F_MICRO in *. rewrite HxD, Hx in R.
    destruct R as [(H1 & H2 & H3 & H4)|[H1 H2]].
    + split; [intros _|unfold overflows; lra]. apply py_int_spec. repeat split; assumption.
    + split; [tauto|intros _]. rewrite H2. reflexivity.
Qed.

(** ** the hashed text *)

(** the decimal digits of an int, with a sign if it is negative *)
Definition decimal_text (n : Z) (s : pystr) : Prop := exists ds, s = sign_text (n <? 0) ++ ds /\ ds <> [] /\ Forall digit_code ds /\
  decimal_number ds = Z.abs n /\ (ds = str "0" \/ hd 48 ds <> 48).
(** the text of the three sources: a bytes literal and two decimal numbers, nothing in between *)
Definition sources (u : bytes) (r t : Z) (s : pystr) : Prop := exists a b c, s = a ++ b ++ c /\
  bytes_literal a u /\ decimal_text r b /\ decimal_text t c.

Lemma literal_ascii q s b : q = 39 \/ q = 34 -> literal_body q s b -> Forall (fun c => 0 <= c < 128) s.
Proof.
  intros Q L. induction L as [|x r b R N1 N2 L IH|x r b I L IH|r b L IH|r b L IH|r b L IH|d x r b D L IH];
    rewrite ?str_t, ?str_n, ?str_r, ?str_x; cbn [app]; repeat (apply Forall_cons; [lia|]); try exact IH; try apply Forall_nil.
  - apply quoted_codes in I. apply Forall_cons; [lia|exact IH].
  - apply Forall_app. split; [|exact IH]. unfold hex_denotes in D.
    assert (Forall (fun c => 0 <= c < 128) (map lower d)) as HL.
    { rewrite D. cbn [hex]. pose proof (b2z_range x). repeat constructor; unfold hexdigit; destruct (_ <? 10) eqn:E; lia. }
    clear D. induction d as [|c d IHd]; [constructor|]. cbn [map] in HL. inversion HL as [|? ? H1 H2 E0]. subst. constructor; [|apply IHd; exact H2].
    unfold lower in H1. destruct (_ && _) eqn:E in H1; lia.
Qed.
Lemma decimal_text_ascii n s : decimal_text n s -> Forall (fun c => 0 <= c < 128 /\ c <> 39 /\ c <> 34) s.
Proof.
  intros (ds & -> & _ & F & _). apply Forall_app. split.
  - unfold sign_text. destruct (n <? 0); [|constructor]. cbn. constructor; [lia|constructor].
  - revert F. apply Forall_impl. unfold digit_code. intros; lia.
Qed.
Lemma sources_ascii u r t s : sources u r t s -> Forall (fun c => 0 <= c < 128) s.
Proof.
  intros (a & b & c & -> & (q & w & Q & -> & L) & B & C). apply Forall_app. split.
  - cbn [app]. repeat (apply Forall_cons; [lia|]). apply Forall_app. split; [exact (literal_ascii q w u Q L)|constructor; [lia|constructor]].
  - apply Forall_app. split; [generalize (decimal_text_ascii _ _ B)|generalize (decimal_text_ascii _ _ C)]; apply Forall_impl; intros; lia.
Qed.
Lemma int_text_decimal n : decimal_text n (int_text n). Proof. exact (int_text_spec n). Qed.
Lemma entropy_sources u r clock t : py_int (fmul clock F_MICRO) = Ok t -> exists s, entropy u r clock = Ok s /\ sources u r t s.
Proof.
  intros E. unfold entropy. rewrite E. eexists. split; [reflexivity|].
  exists (bytes_repr u), (int_text r), (int_text t). repeat split; [apply C84_repr|apply int_text_decimal..].
Qed.
Lemma ascii_utf8 s : Forall (fun c => 0 <= c < 128) s -> utf8_encode s = Ok (map z2b s) /\ map b2z (map z2b s) = s.
Proof.
  intros F. split.
  - rewrite utf8_encode_ok; [|revert F; apply Forall_impl; unfold scalar; intros; lia]. apply (f_equal Ok).
    induction F as [|c s H F IH]; [reflexivity|]. cbn [utf8_chars map]. unfold utf8_char. replace (c <? 128) with true by lia. rewrite IH. reflexivity.
  - induction F as [|c s H F IH]; [reflexivity|]. cbn [map]. rewrite b2z_z2b, IH. f_equal. apply Z.mod_small. lia.
Qed.
Lemma random_key_sources H u r clock t : py_int (fmul clock F_MICRO) = Ok t -> exists m,
  sources u r t (map b2z m) /\ random_key H u r clock = Ok (hexlify (sha256 H m)).
Proof.
  intros E. destruct (entropy_sources u r clock t E) as (s & Es & S). destruct (ascii_utf8 s (sources_ascii _ _ _ _ S)) as [E1 E2].
  exists (map z2b s). rewrite E2. split; [exact S|]. unfold random_key. rewrite Es. cbn [rbind]. rewrite E1. reflexivity.
Qed.

(** ** C95 random_key *)

(** The key is the SHA-256 digest of the three sources as 64 lower-case hexadecimal digits; the time
    [x] (seconds) counts in whole microseconds. *)
Theorem C95_key : forall H urandom number clock x, hash_ok H -> float_is clock x -> ~ overflows (x * 1000000) ->
  exists key message, random_key H urandom number clock = Ok key /\ map b2z key = hex (sha256 H message) /\ length key = 64%nat /\
    sources urandom number (Ztrunc (rnd64 (x * 1000000))) (map b2z message).
Proof.
  intros H u r clock x O Hc Hx. destruct (random_key_sources H u r clock _ (proj1 (times_micro _ _ Hc) Hx)) as (m & S & E).
  exists (hexlify (sha256 H m)), m. split; [exact E|]. split; [|split; [|exact S]].
  - unfold hexlify. apply hex_codes_byte.
  - unfold hexlify. rewrite map_length, hex_length, (proj1 O). reflexivity.
Qed.
Print Assumptions C95_key.
(** A clock that overflows, is infinite or is not a number raises. *)
Theorem C95_bad_clock : forall H urandom number,
  (forall clock x, float_is clock x -> overflows (x * 1000000) -> random_key H urandom number clock = Raise OverflowError) /\
  (forall s, random_key H urandom number (S754_infinity s) = Raise OverflowError) /\
  random_key H urandom number S754_nan = Raise ValueError.
Proof.
  intros H u r. split; [|split; [intros []|]; reflexivity]. intros clock x Hc Hx. unfold random_key, entropy.
  rewrite (proj2 (times_micro _ _ Hc) Hx). reflexivity.
Qed.
Print Assumptions C95_bad_clock.

(** *** what the hashed text determines *)
Lemma last_quote (q q' : Z) (l l' r r' : pystr) : (q = 39 \/ q = 34) -> (q' = 39 \/ q' = 34) ->
  Forall (fun c => c <> 39 /\ c <> 34) r -> Forall (fun c => c <> 39 /\ c <> 34) r' ->
  l ++ q :: r = l' ++ q' :: r' -> l = l' /\ q = q' /\ r = r'.
Proof.
  intros Q Q' F F' E. revert l' E. induction l as [|x l IH]; intros [|x' l'] E; cbn [app] in E.
  - repeat split; congruence.
  - exfalso. assert (r = l' ++ q' :: r') as -> by congruence. apply Forall_app in F. destruct F as [_ F]. apply Forall_inv in F. lia.
  - exfalso. assert (l ++ q :: r = r') as <- by congruence. apply Forall_app in F'. destruct F' as [_ F']. apply Forall_inv in F'. lia.
  - destruct (IH l') as (-> & -> & ->); [congruence|]. repeat split. congruence.
Qed.
Lemma sources_split u r t s u' r' t' : sources u r t s -> sources u' r' t' s -> u = u' /\
  exists b c b' c', b ++ c = b' ++ c' /\ decimal_text r b /\ decimal_text t c /\ decimal_text r' b' /\ decimal_text t' c'.
Proof.
  intros (a & b & c & -> & La & B & C) (a' & b' & c' & E & La' & B' & C').
  assert (forall n m x y, decimal_text n x -> decimal_text m y -> Forall (fun c => c <> 39 /\ c <> 34) (x ++ y)) as NQ.
  { intros n m x y X Y. apply Forall_app. split; [generalize (decimal_text_ascii _ _ X)|generalize (decimal_text_ascii _ _ Y)]; apply Forall_impl; intros; lia. }
  pose proof La as (q & w & Q & Ea & L). pose proof La' as (q' & w' & Q' & Ea' & L').
  assert (([98; q] ++ w) ++ q :: (b ++ c) = ([98; q'] ++ w') ++ q' :: (b' ++ c')) as E1.
  { rewrite Ea, Ea' in E. rewrite <- !app_assoc in E. rewrite <- !app_assoc. exact E. }
  apply (last_quote q q' _ _ _ _ Q Q' (NQ _ _ _ _ B C) (NQ _ _ _ _ B' C')) in E1. destruct E1 as (E2 & -> & E3).
  split; [|exists b, c, b', c'; auto 6].
  apply (C84_literal_unique a); [exact La|]. assert (a = a') as ->; [|exact La'].
  rewrite Ea, Ea', !app_assoc, E2. reflexivity.
Qed.

(** Two calls that give the same key used the same operating system randomness, or there is a
    SHA-256 collision - whatever the other two sources did. *)
Theorem C95_urandom_matters : forall H u r clock u' r' clock' key,
  random_key H u r clock = Ok key -> random_key H u' r' clock' = Ok key ->
  u = u' \/ exists m m', m <> m' /\ sha256 H m = sha256 H m'.
Proof.
  intros H u r clock u' r' clock' key E E'.
  destruct (py_int (fmul clock F_MICRO)) as [t|e] eqn:T; [|unfold random_key, entropy in E; rewrite T in E; discriminate].
  destruct (py_int (fmul clock' F_MICRO)) as [t'|e] eqn:T'; [|unfold random_key, entropy in E'; rewrite T' in E'; discriminate].
  destruct (random_key_sources H u r clock t T) as (m & S & K). destruct (random_key_sources H u' r' clock' t' T') as (m' & S' & K').
  assert (sha256 H m = sha256 H m') as HS.
  { apply hex_inj. rewrite <- (hex_codes_byte (sha256 H m)), <- (hex_codes_byte (sha256 H m')). f_equal. unfold hexlify in *. congruence. }
  destruct (list_eq_dec Byte.byte_eq_dec m m') as [<-|N]; [left|right; exists m, m'; auto].
  exact (proj1 (sources_split _ _ _ _ _ _ _ S S')).
Qed.
Print Assumptions C95_urandom_matters.

Lemma decimal_text_len n s : decimal_text n s -> 0 < n -> 10 ^ (zlen s - 1) <= n < 10 ^ zlen s.
Proof.
  intros (ds & -> & N & F & V & Z0) Hn. unfold sign_text. replace (n <? 0) with false by lia. cbn [app].
  replace (Z.abs n) with n in V by lia. rewrite <- V in *. clear V.
  destruct ds as [|c r]; [congruence|]. assert (c <> 48) as Hc by (destruct Z0 as [Z0|Z0]; [rewrite Z0 in Hn; cbn in Hn; lia|exact Z0]).
  apply Forall_cons_iff in F. destruct F as [Fc F]. unfold digit_code in Fc.
  assert (forall l a, Forall digit_code l -> 0 <= a -> a * 10 ^ zlen l <= fold_left (fun n c => 10 * n + (c - 48)) l a < (a + 1) * 10 ^ zlen l) as G.
  { clear. induction l as [|c l IH]; intros a F Ha; [cbn; lia|]. apply Forall_cons_iff in F. destruct F as [Fc F]. cbn [fold_left].
    unfold digit_code in Fc. specialize (IH (10 * a + (c - 48)) F ltac:(lia)). unfold zlen in *. cbn [length].
    rewrite Nat2Z.inj_succ, Z.pow_succ_r by lia. assert (0 < 10 ^ Z.of_nat (length l)) by (apply Z.pow_pos_nonneg; lia). nia. }
  unfold decimal_number. cbn [fold_left]. specialize (G r (10 * 0 + (c - 48)) F ltac:(lia)).
  unfold zlen in *. cbn [length]. rewrite Nat2Z.inj_succ. replace (Z.succ (Z.of_nat (length r)) - 1) with (Z.of_nat (length r)) by lia.
  rewrite Z.pow_succ_r by lia. assert (0 < 10 ^ Z.of_nat (length r)) by (apply Z.pow_pos_nonneg; lia). nia.
Qed.
Lemma decimal_text_inj n n' s : 0 <= n -> 0 <= n' -> decimal_text n s -> decimal_text n' s -> n = n'.
Proof.
  intros P P' (ds & -> & _ & _ & V & _) (ds' & E & _ & _ & V' & _). unfold sign_text in E.
  replace (n <? 0) with false in E by lia. replace (n' <? 0) with false in E by lia. cbn [app] in E. subst ds'. lia.
Qed.
(** Between September 2001 and November 2286 (16 digits of microseconds) all three sources count. *)
Theorem C95_all_matter : forall H u r clock t u' r' clock' t' key,
  py_int (fmul clock F_MICRO) = Ok t -> 10 ^ 15 <= t < 10 ^ 16 -> 0 <= r ->
  py_int (fmul clock' F_MICRO) = Ok t' -> 10 ^ 15 <= t' < 10 ^ 16 -> 0 <= r' ->
  random_key H u r clock = Ok key -> random_key H u' r' clock' = Ok key ->
  (u = u' /\ r = r' /\ t = t') \/ exists m m', m <> m' /\ sha256 H m = sha256 H m'.
Proof.
  intros H u r clock t u' r' clock' t' key T Ht Hr T' Ht' Hr' E E'.
  destruct (random_key_sources H u r clock t T) as (m & S & K). destruct (random_key_sources H u' r' clock' t' T') as (m' & S' & K').
  assert (sha256 H m = sha256 H m') as HS.
  { apply hex_inj. rewrite <- (hex_codes_byte (sha256 H m)), <- (hex_codes_byte (sha256 H m')). f_equal. unfold hexlify in *. congruence. }
  destruct (list_eq_dec Byte.byte_eq_dec m m') as [<-|N]; [left|right; exists m, m'; auto].
  destruct (sources_split _ _ _ _ _ _ _ S S') as (-> & b & c & b' & c' & Eb & B & C & B' & C'). split; [reflexivity|].
  assert (forall n s, decimal_text n s -> 10 ^ 15 <= n < 10 ^ 16 -> length s = 16%nat) as L16.
  { intros n s D Hn. destruct (decimal_text_len n s D ltac:(lia)) as [G1 G2].
    assert (zlen s = 16); [|unfold zlen in *; lia].
    destruct (Z.lt_trichotomy (zlen s) 16) as [L|[L|L]]; [|exact L|]; exfalso.
    - assert (10 ^ zlen s <= 10 ^ 15) by (apply Z.pow_le_mono_r; lia). lia.
    - assert (10 ^ 16 <= 10 ^ (zlen s - 1)) by (apply Z.pow_le_mono_r; lia). lia. }
  assert (b = b' /\ c = c') as [-> ->].
  { apply (f_equal (@length Z)) in Eb as El. rewrite !app_length, (L16 _ _ C Ht), (L16 _ _ C' Ht') in El.
    assert (length b = length b') as Lb by lia. clear - Eb Lb. revert b' Lb Eb. induction b as [|x b IH]; intros [|x' b'] Lb Eb; cbn in Lb; try lia; cbn [app] in Eb; [auto|].
    destruct (IH b') as [-> ->]; [lia|congruence|]. split; congruence. }
  split; [exact (decimal_text_inj _ _ _ Hr Hr' B B')|exact (decimal_text_inj t t' c' ltac:(lia) ltac:(lia) C C')].
Qed.
Print Assumptions C95_all_matter.

(** The two numbers are not kept apart: 11 at 2 seconds and 1 at 12 seconds give the same key. *)
Theorem C95_no_separator : forall H u,
  random_key H u 11 (S754_finite false 4503599627370496 (-51)) = random_key H u 1 (S754_finite false 6755399441055744 (-49)).
Proof. intros H u. unfold random_key, entropy. cbn [rbind]. do 2 f_equal. Qed.
Print Assumptions C95_no_separator.

Example C95_clocks : float_is (S754_finite false 4503599627370496 (-51)) 2 /\ float_is (S754_finite false 7401047379148800 (-22)) 1764547200 /\ ~ overflows (1764547200 * 1000000).
Proof.
  repeat split; try reflexivity; unfold SF2R, F2R, Fnum, Fexp, cond_Zopp.
  - change (bpow radix2 (-51)) with (/ 2251799813685248)%R. lra.
  - change (bpow radix2 (-22)) with (/ 4194304)%R. lra.
  - apply small_no_overflow. rewrite Rabs_right by lra. lra.
Qed.
Example C95_example : let now := S754_finite false 7401047379148800 (-22) in
  py_int (fmul now F_MICRO) = Ok 1764547200000000 /\ 10 ^ 15 <= 1764547200000000 < 10 ^ 16 /\
  entropy [x00; x41; x27] 255 now = Ok (str "b""\x00A'""2551764547200000000").
Proof. repeat split; vm_compute; congruence. Qed.
