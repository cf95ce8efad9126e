(** * P_FloatIO: property C75 (WriteFloat, WriteDouble, ReadFloat, ReadDouble) *)
From Coq Require Import Reals Lia Lra ZifyBool ZifyNat.
From Flocq Require Import Core BinarySingleNaN.
From Coq Require Import Floats.SpecFloat.
From Verif Require Import M_Py M_Float M_UInt M_Writer M_Reader M_FloatIO S_IO S_Float S_FloatIO L_Bytes L_IO L_Float L_Fixed8 L_Fixed8b L_FloatIO.
Open Scope Z_scope.

Lemma write_raw b : writes (WriteBytes (VBytes b) false) (zlen b) b.
Proof. apply bio_write_end. Qed.
Lemma double_writes f e : writes (WriteDouble (AFloat f) e) 8 (z2bytes e 8 (bits_of FDouble f)).
Proof.
  unfold WriteDouble. eapply writes_lift; [reflexivity|]. replace 8 with (zlen (z2bytes e 8 (bits_of FDouble f))) at 1; [apply write_raw|].
  unfold zlen. rewrite z2bytes_length. reflexivity.
Qed.
Lemma float_writes f y e : narrow f = Ok y -> writes (WriteFloat (AFloat f) e) 4 (z2bytes e 4 (bits_of FSingle y)).
Proof.
  intros N. unfold WriteFloat. cbn [as_double rbind]. rewrite N. eapply writes_lift; [reflexivity|].
  replace 4 with (zlen (z2bytes e 4 (bits_of FSingle y))) at 1; [apply write_raw|]. unfold zlen. rewrite z2bytes_length. reflexivity.
Qed.
Lemma double_reads e d : length d = 8%nat -> reads (ReadDouble e) d (of_bits FDouble (bytes2z e d)).
Proof.
  intros L. unfold ReadDouble. eapply reads_lift; [apply bio_read_exact_n; [unfold zlen; rewrite L; reflexivity|unfold maxsize; lia]|].
  unfold zlen. rewrite L. reflexivity.
Qed.
Lemma float_reads e d : length d = 4%nat -> reads (ReadFloat e) d (widen (of_bits FSingle (bytes2z e d))).
Proof.
  intros L. unfold ReadFloat. eapply reads_lift; [apply bio_read_exact_n; [unfold zlen; rewrite L; reflexivity|unfold maxsize; lia]|].
  unfold zlen. rewrite L. reflexivity.
Qed.
Lemma bytes_bits e f x : valid_binary (f_P f) (f_E f) x = true -> bytes2z e (z2bytes e (fwidth f) (bits_of f x)) = bits_of f x.
Proof.
  intros V. rewrite bytes2z_z2bytes. apply Z.mod_small. pose proof (bits_range f x V) as B.
  replace (256 ^ Z.of_nat (fwidth f)) with (2 ^ (8 * Z.of_nat (fwidth f))); [exact B|]. destruct f; reflexivity.
Qed.
Lemma bytes_range e f d : length d = fwidth f -> 0 <= bytes2z e d < 2 ^ (8 * Z.of_nat (fwidth f)).
Proof.
  intros L. pose proof (bytes2z_bound e d) as B. unfold zlen in B. rewrite L in B.
  replace (2 ^ (8 * Z.of_nat (fwidth f))) with (256 ^ Z.of_nat (fwidth f)); [exact B|]. destruct f; reflexivity.
Qed.
Lemma double_ieee b : 0 <= b < 2 ^ 64 -> binary64 b (of_bits FDouble b) /\ valid_binary 53 1024 (of_bits FDouble b) = true /\
  (of_bits FDouble b <> S754_nan -> bits_of FDouble (of_bits FDouble b) = b).
Proof.
  intros Hb. destruct (of_bits_spec FDouble b Hb) as (s & ex & fr & H1 & H2 & H3 & H4 & H5 & H6).
  change (exp_bits FDouble) with 11 in *. change (frac_bits FDouble) with 52 in *. change (f_emin FDouble) with (-1074) in *.
  change (f_P FDouble) with 53 in *. change (f_E FDouble) with 1024 in *.
  split; [|split; [|exact H6]].
  - exists s, ex, fr. split; [exact H1|]. split; [exact H2|]. split; [exact H3|]. cbv zeta. split; [exact H4|].
    intros E. destruct (H5 E) as (A & B & C & D). split; [exact A|]. split; [exact B|]. split; [exact C|]. rewrite D.
    change (1 - (2 ^ (11 - 1) - 1) - 52) with (-1074). replace (ex - 1 + -1074) with (ex - (2 ^ (11 - 1) - 1) - 52) by lia. reflexivity.
  - destruct (Z.eq_dec ex (2 ^ 11 - 1)) as [E|E]; [rewrite (H4 E); destruct (fr =? 0); reflexivity|]. apply H5. lia.
Qed.
Lemma single_ieee b : 0 <= b < 2 ^ 32 -> binary32 b (widen (of_bits FSingle b)) /\ valid_binary 24 128 (of_bits FSingle b) = true /\
  (of_bits FSingle b <> S754_nan -> bits_of FSingle (of_bits FSingle b) = b).
Proof.
  intros Hb. destruct (of_bits_spec FSingle b Hb) as (s & ex & fr & H1 & H2 & H3 & H4 & H5 & H6).
  change (exp_bits FSingle) with 8 in *. change (frac_bits FSingle) with 23 in *. change (f_emin FSingle) with (-149) in *.
  change (f_P FSingle) with 24 in *. change (f_E FSingle) with 128 in *.
  split; [|split; [|exact H6]].
  - exists s, ex, fr. split; [exact H1|]. split; [exact H2|]. split; [exact H3|]. cbv zeta. split.
    + intros E. rewrite (H4 E). destruct (fr =? 0); reflexivity.
    + intros E. destruct (H5 E) as (A & B & C & D). destruct (widen_spec _ C B) as [W1 W2].
      split; [congruence|]. rewrite D in W1. change (1 - (2 ^ (8 - 1) - 1) - 23) with (-149).
      replace (ex - (2 ^ (8 - 1) - 1) - 23) with (ex - 1 + -149) by lia. exact W1.
  - destruct (Z.eq_dec ex (2 ^ 8 - 1)) as [E|E]; [rewrite (H4 E); destruct (fr =? 0); reflexivity|]. apply H5. lia.
Qed.
Lemma widen_nan y : valid_binary 24 128 y = true -> (widen y = S754_nan <-> y = S754_nan).
Proof.
  intros V. split; [|intros ->; reflexivity]. intros W. destruct y as [s|s| |s m e]; try reflexivity; try discriminate W.
  destruct (widen_spec _ V eq_refl) as [(F & _) _]. rewrite W in F. discriminate F.
Qed.
Lemma narrow_widen y : valid_binary 24 128 y = true -> narrow (widen y) = Ok y.
Proof.
  intros V. destruct y as [s|s| |s m e]; try reflexivity.
  destruct (widen_spec _ V eq_refl) as [(F & V2 & R) S]. destruct (widen (S754_finite s m e)) as [s'|s'| |s' m' e'] eqn:W; try discriminate F.
  - exfalso. rewrite SF2R_finite in R. change (SF2R radix2 (S754_zero s')) with 0%R in R.
    assert (0 < IZR (Z.pos m) * bpow radix2 e)%R by (apply Rmult_lt_0_compat; [apply IZR_lt; lia|apply bpow_gt_0]). destruct s; lra.
  - cbn [narrow]. destruct (round24 s' m' e') as [V3 H]. rewrite R in H. cbn [valid_binary] in V. rewrite (rnd32_single m e s V) in H.
    destruct H as [(_ & R3 & F3 & S3)|[O _]].
    + assert (E : SpecFloat.binary_round 24 128 s' m' e' = S754_finite s m e).
      { apply (SF_inj 24 128 eq_refl eq_refl); try assumption; try reflexivity. cbn [sign_SF] in *. congruence. }
      rewrite E. reflexivity.
    + exfalso. pose proof (abs_B2R_lt_emax 24 128 (SF2B (S754_finite s m e) V)) as K. rewrite B2R_SF2B in K. lra.
Qed.

(** ** C75 Floating point numbers in streams *)
(** doubles round-trip exactly, with the IEEE 754 encoding, in both byte orders *)
Theorem C75_double_roundtrip : forall e f, is_number f -> exists enc, length enc = 8%nat /\ binary64 (num e enc) f /\
  writes (WriteDouble (AFloat f) e) 8 enc /\ reads (ReadDouble e) enc f.
Proof.
  intros e f [V N]. exists (z2bytes e 8 (bits_of FDouble f)). pose proof (bytes_bits e FDouble f V) as B. cbn [fwidth] in B.
  assert (L : length (z2bytes e 8 (bits_of FDouble f)) = 8%nat) by apply z2bytes_length.
  split; [exact L|]. rewrite num_eq, B. pose proof (of_bits_bits FDouble f V N) as O. split; [|split].
  - pose proof (bits_range FDouble f V) as R. destruct (double_ieee _ R) as [I _]. rewrite O in I. exact I.
  - apply double_writes.
  - pose proof (double_reads e _ L) as R. rewrite B, O in R. exact R.
Qed.
Print Assumptions C75_double_roundtrip.
(** every 8 bytes are read as the number they encode; writing it gives the 8 bytes back, except for NaNs *)
Theorem C75_double_any_bytes : forall e d, length d = 8%nat -> exists f, binary64 (num e d) f /\ reads (ReadDouble e) d f /\
  (f <> S754_nan -> is_number f /\ writes (WriteDouble (AFloat f) e) 8 d).
Proof.
  intros e d L. exists (of_bits FDouble (bytes2z e d)). rewrite num_eq. pose proof (bytes_range e FDouble d L) as R.
  destruct (double_ieee _ R) as (I & V & B). split; [exact I|]. split; [apply double_reads, L|].
  intros N. split; [split; assumption|]. pose proof (double_writes (of_bits FDouble (bytes2z e d)) e) as W. rewrite (B N), <- L, z2bytes_bytes2z in W. exact W.
Qed.
Print Assumptions C75_double_any_bytes.
(** every 4 bytes are read as the single-precision number they encode, and writing it as a float gives them back *)
Theorem C75_float_any_bytes : forall e d, length d = 4%nat -> exists f, binary32 (num e d) f /\ reads (ReadFloat e) d f /\
  (f <> S754_nan -> is_number f /\ writes (WriteFloat (AFloat f) e) 4 d).
Proof.
  intros e d L. exists (widen (of_bits FSingle (bytes2z e d))). rewrite num_eq. pose proof (bytes_range e FSingle d L) as R.
  destruct (single_ieee _ R) as (I & V & B). split; [exact I|]. split; [apply float_reads, L|].
  intros N. assert (N' : of_bits FSingle (bytes2z e d) <> S754_nan) by (intros E; apply N, widen_nan; assumption). split.
  - split; [|exact N]. destruct (is_finite_SF (of_bits FSingle (bytes2z e d))) eqn:F.
    + destruct (widen_spec _ V F) as [(_ & V2 & _) _]. exact V2.
    + destruct (of_bits FSingle (bytes2z e d)); try discriminate F; try congruence. reflexivity.
  - pose proof (float_writes _ _ e (narrow_widen _ V)) as W. rewrite (B N'), <- L, z2bytes_bytes2z in W. exact W.
Qed.
Print Assumptions C75_float_any_bytes.
(** WriteFloat rounds to the nearest single-precision number; too large numbers are refused *)
Theorem C75_float_rounds : forall e f x, float_is f x ->
  ((Rabs (rnd32 x) < bpow radix2 128)%R -> exists enc f', length enc = 4%nat /\ binary32 (num e enc) f' /\
     writes (WriteFloat (AFloat f) e) 4 enc /\ reads (ReadFloat e) enc f' /\ float_is f' (rnd32 x) /\ sign_SF f' = sign_SF f) /\
  ((bpow radix2 128 <= Rabs (rnd32 x))%R -> refuses (WriteFloat (AFloat f) e) OverflowError).
Proof.
  intros e f x (F & V & R).
  assert (G : forall y, narrow f = Ok y -> valid_binary 24 128 y = true -> is_finite_SF y = true -> SF2R radix2 y = rnd32 x -> sign_SF y = sign_SF f ->
    exists enc f', length enc = 4%nat /\ binary32 (num e enc) f' /\ writes (WriteFloat (AFloat f) e) 4 enc /\ reads (ReadFloat e) enc f' /\ float_is f' (rnd32 x) /\ sign_SF f' = sign_SF f).
  { intros y Ny Vy Fy Ry Sy. exists (z2bytes e 4 (bits_of FSingle y)), (widen y).
    assert (L : length (z2bytes e 4 (bits_of FSingle y)) = 4%nat) by apply z2bytes_length.
    pose proof (bytes_bits e FSingle y Vy) as B. cbn [fwidth] in B.
    assert (O : of_bits FSingle (bits_of FSingle y) = y) by (apply of_bits_bits; [exact Vy|intros ->; discriminate Fy]).
    split; [exact L|]. rewrite num_eq, B. pose proof (bits_range FSingle y Vy) as Rg. destruct (single_ieee _ Rg) as [I _]. rewrite O in I.
    split; [exact I|]. split; [apply float_writes, Ny|]. split; [pose proof (float_reads e _ L) as Rd; rewrite B, O in Rd; exact Rd|].
    destruct (widen_spec y Vy Fy) as [W1 W2]. rewrite Ry in W1. split; [exact W1|congruence]. }
  destruct f as [s|s| |s m e0]; try discriminate F.
  - cbn [SF2R] in R. assert (Z0 : rnd32 x = 0%R) by (rewrite <- R; apply round_0; typeclasses eauto). split.
    + intros _. apply (G (S754_zero s)); try reflexivity. rewrite Z0. reflexivity.
    + rewrite Z0, Rabs_R0. intros K. pose proof (bpow_gt_0 radix2 128). lra.
  - destruct (round24 s m e0) as [V3 H]. rewrite R in H. destruct H as [(A & B & C & D)|[A B]].
    + split; [intros _|intros K; lra]. apply (G (SpecFloat.binary_round 24 128 s m e0)); try assumption.
      cbn [narrow]. destruct (SpecFloat.binary_round 24 128 s m e0); try reflexivity. discriminate C.
    + split; [intros K; lra|intros _]. unfold WriteFloat. apply refuses_lift. cbn [as_double rbind narrow]. rewrite B. reflexivity.
Qed.
Print Assumptions C75_float_rounds.
(** so a number survives WriteFloat/ReadFloat exactly when it is a single-precision number *)
Theorem C75_float_roundtrip_iff : forall e f x, float_is f x ->
  ((exists enc, writes (WriteFloat (AFloat f) e) 4 enc /\ reads (ReadFloat e) enc f) <->
   rnd32 x = x /\ (Rabs x < bpow radix2 128)%R).
Proof.
  intros e f x Hf. destruct (C75_float_rounds e f x Hf) as [A B]. split.
  - intros (enc & W & Rd). destruct (Rlt_le_dec (Rabs (rnd32 x)) (bpow radix2 128)) as [C|C].
    + destruct (A C) as (enc' & f' & L & I & W' & Rd' & Ff & S).
      assert (enc' = enc) as ->.
      { pose proof (W []) as K. rewrite (W' []) in K. injection K as K. exact K. }
      assert (f' = f) as ->.
      { pose proof (Rd (mkStream enc 0) [] (eq_sym (app_nil_r enc))) as K. rewrite (Rd' (mkStream enc 0) [] (eq_sym (app_nil_r enc))) in K. congruence. }
      destruct Hf as (_ & _ & R1), Ff as (_ & _ & R2). assert (rnd32 x = x) as E by congruence. split; [exact E|]. rewrite E in C. exact C.
    + exfalso. pose proof (B C (at_end [])) as K. rewrite (W []) in K. discriminate K.
  - intros [E C]. rewrite <- E in C. destruct (A C) as (enc & f' & L & I & W & Rd & Ff & S). exists enc. split; [exact W|].
    assert (f' = f) as ->; [|exact Rd]. destruct Hf as (F1 & V1 & R1), Ff as (F2 & V2 & R2).
    apply (SF_inj 53 1024 eq_refl eq_refl); try assumption. congruence.
Qed.
Print Assumptions C75_float_roundtrip_iff.
Theorem C75_float_infinite : forall e s, exists enc, length enc = 4%nat /\
  writes (WriteFloat (AFloat (S754_infinity s)) e) 4 enc /\ reads (ReadFloat e) enc (S754_infinity s).
Proof.
  intros e s. exists (z2bytes e 4 (bits_of FSingle (S754_infinity s))). split; [apply z2bytes_length|]. split; [apply float_writes; reflexivity|].
  pose proof (float_reads e _ (z2bytes_length e 4 (bits_of FSingle (S754_infinity s)))) as R.
  pose proof (bytes_bits e FSingle (S754_infinity s) eq_refl) as B. cbn [fwidth] in B. rewrite B, of_bits_bits in R by (reflexivity || discriminate). exact R.
Qed.
Print Assumptions C75_float_infinite.
(** NaN stays NaN *)
Theorem C75_nan : forall e, exists enc4 enc8, length enc4 = 4%nat /\ length enc8 = 8%nat /\
  writes (WriteFloat (AFloat S754_nan) e) 4 enc4 /\ reads (ReadFloat e) enc4 S754_nan /\
  writes (WriteDouble (AFloat S754_nan) e) 8 enc8 /\ reads (ReadDouble e) enc8 S754_nan.
Proof.
  intros e. exists (z2bytes e 4 (bits_of FSingle S754_nan)), (z2bytes e 8 (bits_of FDouble S754_nan)).
  split; [apply z2bytes_length|]. split; [apply z2bytes_length|]. split; [apply float_writes; reflexivity|].
  pose proof (float_reads e _ (z2bytes_length e 4 (bits_of FSingle S754_nan))) as R1. pose proof (bytes_bits e FSingle S754_nan eq_refl) as B1. cbn [fwidth] in B1. rewrite B1 in R1.
  pose proof (double_reads e _ (z2bytes_length e 8 (bits_of FDouble S754_nan))) as R2. pose proof (bytes_bits e FDouble S754_nan eq_refl) as B2. cbn [fwidth] in B2. rewrite B2 in R2.
  split; [exact R1|]. split; [apply double_writes|exact R2].
Qed.
Print Assumptions C75_nan.
(** an int is written as the float nearest to it: exact up to 2^53, and 2^24 for WriteFloat *)
Theorem C75_int : forall e z, ~ overflows (IZR z) -> exists f, float_is f (rnd64 (IZR z)) /\
  WriteDouble (AInt z) e = WriteDouble (AFloat f) e /\ WriteFloat (AInt z) e = WriteFloat (AFloat f) e.
Proof.
  intros e z N. destruct (Z.eq_dec z 0) as [->|Z0].
  - exists (S754_zero false). split; [|split; reflexivity]. repeat split. cbn [SF2R]. symmetry. apply round_0. typeclasses eauto.
  - destruct (float_of_int_spec z Z0) as [(f & E & F & _)|[O _]]; [|contradiction]. exists f. split; [exact F|].
    unfold WriteDouble, WriteFloat. cbn [as_double]. rewrite E. split; reflexivity.
Qed.
Print Assumptions C75_int.
Theorem C75_small_int : forall e z,
  (Z.abs z <= 2 ^ 53 -> exists enc f, writes (WriteDouble (AInt z) e) 8 enc /\ reads (ReadDouble e) enc f /\ float_is f (IZR z)) /\
  (Z.abs z <= 2 ^ 24 -> exists enc f, writes (WriteFloat (AInt z) e) 4 enc /\ reads (ReadFloat e) enc f /\ float_is f (IZR z)).
Proof.
  intros e z. assert (P24 : IZR (2 ^ 24) = bpow radix2 24) by (apply (IZR_Zpower radix2 24); lia). assert (K : Z.abs z <= 2 ^ 53 -> exists f, float_is f (IZR z) /\
    WriteDouble (AInt z) e = WriteDouble (AFloat f) e /\ WriteFloat (AInt z) e = WriteFloat (AFloat f) e).
  { intros H. destruct (C75_int e z) as (f & F & W); [|exists f; rewrite rnd64_int in F by exact H; split; assumption].
    unfold overflows. rewrite rnd64_int by exact H. rewrite <- abs_IZR. intros K.
    assert (IZR (Z.abs z) <= IZR (2 ^ 53))%R by (apply IZR_le; exact H). assert (P53 : IZR (2 ^ 53) = bpow radix2 53) by (apply (IZR_Zpower radix2 53); lia). rewrite P53 in H0.
    pose proof (bpow_lt radix2 53 1024 ltac:(lia)). lra. }
  split; intros H.
  - destruct (K H) as (f & F & -> & _). destruct (C75_double_roundtrip e f) as (enc & _ & _ & W & R).
    + destruct F as (F1 & F2 & _). split; [exact F2|intros ->; discriminate F1].
    + exists enc, f. auto.
  - destruct K as (f & F & _ & ->); [change (2 ^ 53) with (2 ^ 24 * 2 ^ 29); lia|].
    assert (G : rnd32 (IZR z) = IZR z).
    { apply round_generic; [typeclasses eauto|]. destruct (Z.eq_dec (Z.abs z) (2 ^ 24)) as [E|E].
      - apply generic_format_abs_inv. rewrite <- abs_IZR, E, P24. apply generic_format_bpow. cbn. lia.
      - apply generic_format_FLT. exists (Float radix2 z 0); [symmetry; apply F2R_0e| |cbn [Fexp]; lia]. cbn [Fnum]. change (radix2 ^ 24) with (2 ^ 24). lia. }
    destruct (proj1 (C75_float_rounds e f (IZR z) F)) as (enc & f' & _ & _ & W & R & Ff & _).
    + rewrite G, <- abs_IZR. eapply Rle_lt_trans; [apply IZR_le, H|]. rewrite P24. apply bpow_lt. lia.
    + rewrite G in Ff. exists enc, f'. auto.
Qed.
Print Assumptions C75_small_int.
(** an int beyond the float range and anything that is not a number raise struct.error, and nothing is written *)
Theorem C75_refused : forall e a, (a = AOther \/ exists z, a = AInt z /\ overflows (IZR z)) ->
  refuses (WriteDouble a e) StructError /\ refuses (WriteFloat a e) StructError.
Proof.
  intros e a H. assert (E : as_double a = Raise StructError).
  { destruct H as [->|(z & -> & O)]; [reflexivity|]. cbn [as_double]. destruct (Z.eq_dec z 0) as [->|Z0].
    - exfalso. revert O. apply small_no_overflow. rewrite Rabs_R0. apply IZR_le. lia.
    - destruct (int_rounded z Z0) as [_ [(A & _)|[_ B]]]; [exfalso; unfold overflows in O; lra|].
      unfold float_of_int, fprec, femax. rewrite B. reflexivity. }
  split; apply refuses_lift; rewrite E; reflexivity.
Qed.
Print Assumptions C75_refused.
(** too few bytes left: struct.error, and they are consumed *)
Theorem C75_short : forall e s,
  ((length (remaining s) < 4)%nat -> ReadFloat e s = (Raise StructError, advance (length (remaining s)) s)) /\
  ((length (remaining s) < 8)%nat -> ReadDouble e s = (Raise StructError, advance (length (remaining s)) s)).
Proof.
  intros e s. split; intros H; unfold ReadFloat, ReadDouble, ibind; rewrite bio_read_spec by (unfold maxsize; lia);
  rewrite firstn_all2 by lia; unfold ilift.
  - replace (zlen (remaining s) =? 4) with false by (unfold zlen; lia). reflexivity.
  - replace (zlen (remaining s) =? 8) with false by (unfold zlen; lia). reflexivity.
Qed.
Print Assumptions C75_short.
(** 0.1 as double and as float; 1e39 does not fit a float *)
Example C75_example : let f01 := S754_finite false 7205759403792794 (-56) in
  is_number f01 /\ int_truediv 1 10 = Ok f01 /\
  WriteDouble (AFloat f01) LE (at_end []) = (Ok 8, at_end [x9a; x99; x99; x99; x99; x99; xb9; x3f]) /\
  WriteFloat (AFloat f01) BE (at_end []) = (Ok 4, at_end [x3d; xcc; xcc; xcd]) /\
  fst (ReadFloat BE (mkStream [x3d; xcc; xcc; xcd] 0)) = Ok (S754_finite false 7205759511166976 (-56)) /\
  WriteFloat (AFloat (S754_finite false 6617444900424221 77)) LE (at_end []) = (Raise OverflowError, at_end []) /\
  WriteFloat (AInt (-16777217)) LE (at_end []) = (Ok 4, at_end [x00; x00; x80; xcb]).
Proof.
  intros f01. split; [split; [vm_compute; reflexivity|discriminate]|]. split; [vm_compute; reflexivity|]. split; [vm_compute; reflexivity|].
  split; [vm_compute; reflexivity|]. split; [vm_compute; reflexivity|]. split; vm_compute; reflexivity.
Qed.
