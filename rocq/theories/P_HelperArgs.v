(** * P_HelperArgs: C121 (the helper functions with arguments of other types) *)
From Coq Require Import ZArith Lia ZifyBool List String Reals Lra Floats.SpecFloat.
From Flocq Require Import Core IEEE754.BinarySingleNaN.
From Verif Require Import M_Py M_Float M_Hash M_Base58 M_UInt M_Helper M_Fixed8 M_Fixed8Float M_HelperArgs.
From Verif Require Import L_Bytes L_IO L_Base58 L_Address L_Float L_Fixed8Float S_IO S_Float S_KeyPair S_Address P_Helper P_Address.
Import ListNotations.
Open Scope Z_scope.

(** ** hashes *)
(** bytes and bytearrays: as C46, C82 and C108 have it *)
Theorem C121_bytes : forall H v b, bytes_arg v b ->
  double_sha256_any H v = Ok (double_sha256 H b) /\ bin_dbl_sha256_any H v = Ok (bin_dbl_sha256 H b) /\
  bin_hash160Bytes_any H v = Ok (bin_hash160Bytes H b) /\ bin_hash160_any H v = Ok (bin_hash160 H b) /\
  redeem_to_scripthash_any H v = Ok (redeem_to_scripthash H b) /\ pubkey_to_redeem_any v = pubkey_to_redeem b /\
  pubkey_to_pubhash_any H v = pubkey_to_pubhash H b /\ scripthash_to_address_any H v = Ok (scripthash_to_address H b).
Proof. intros H v b [c|c]; repeat split. Qed.
Print Assumptions C121_bytes.
(** Everything else raises TypeError: a text, even one of hexadecimal digits, as well as None or a number. *)
Theorem C121_others : forall H v, (forall b, ~ bytes_arg v b) ->
  double_sha256_any H v = Raise TypeError /\ bin_dbl_sha256_any H v = Raise TypeError /\
  bin_hash160Bytes_any H v = Raise TypeError /\ bin_hash160_any H v = Raise TypeError /\
  redeem_to_scripthash_any H v = Raise TypeError /\ pubkey_to_redeem_any v = Raise TypeError /\
  pubkey_to_pubhash_any H v = Raise TypeError /\ scripthash_to_address_any H v = Raise TypeError.
Proof.
  intros H v N. assert (B : buffer v = Raise TypeError) by (destruct v; try reflexivity; exfalso; eapply N; constructor).
  unfold double_sha256_any, bin_dbl_sha256_any, bin_hash160Bytes_any, bin_hash160_any, redeem_to_scripthash_any, pubkey_to_redeem_any, pubkey_to_pubhash_any, scripthash_to_address_any, bin_hash160Bytes_any, sha256_any, pubkey_to_redeem_any.
  rewrite B. repeat split.
Qed.
Print Assumptions C121_others.
(** Only ToScriptHash takes a text: of two or more hexadecimal characters, unless unhex is False. *)
Theorem C121_script_hash : forall H v unhex,
  (forall s, v = VStr s -> unhex = false \/ (List.length s < 2)%nat -> ToScriptHash H v unhex = Raise TypeError) /\
  (forall s, v = VStr s -> (2 <= List.length s)%nat -> Forall (fun c => 0 <= c < 128) s -> ToScriptHash H v true = ToScriptHash H (VBytes (map z2b s)) true) /\
  (forall s c, v = VStr s -> (2 <= List.length s)%nat -> In c s -> 128 <= c -> ToScriptHash H v true = Raise ValueError) /\
  ((forall s, v <> VStr s) -> (forall b, ~ bytes_arg v b) -> ToScriptHash H v unhex = Raise TypeError).
Proof.
  intros H v u. split; [|split; [|split]].
  - intros s -> L. unfold ToScriptHash. cbn [py_len rbind]. replace ((zlen s >? 1) && u) with false; [reflexivity|]. destruct L as [-> | L]; [now rewrite Bool.andb_false_r|].
    replace (zlen s >? 1) with false by (unfold zlen; lia). reflexivity.
  - intros s -> L F. unfold ToScriptHash. cbn [py_len rbind]. rewrite zlen_map. replace (zlen s >? 1) with true by (unfold zlen; lia). cbn [andb].
    replace (unhexlify (VBytes (map z2b s))) with (unhexlify (VStr s)); [reflexivity|]. unfold unhexlify.
    replace (forallb (fun c => c <? 128) s) with true by (symmetry; apply forallb_forall; intros c Hc; rewrite Forall_forall in F; specialize (F c Hc); lia).
    rewrite (L_Bytes.map_b2z_z2b s); [reflexivity|]. eapply Forall_impl; [|exact F]. intros c Hc. cbv beta in *. lia.
  - intros s c -> L I G. unfold ToScriptHash. cbn [py_len rbind]. replace (zlen s >? 1) with true by (unfold zlen; lia). cbn [andb]. unfold unhexlify.
    replace (forallb (fun c => c <? 128) s) with false; [reflexivity|]. symmetry. apply Bool.not_true_is_false. intros E. rewrite forallb_forall in E. specialize (E c I). lia.
  - intros T B. destruct v as [b|b|s|z|b|z| |]; try reflexivity; [destruct (B b); constructor|destruct (B b); constructor|destruct (T s eq_refl)].
Qed.
Print Assumptions C121_script_hash.
(** ToAddress of a 32-byte hash gives a text of 50 characters, which is not a valid address, although
    cli.py's address_to_scripthash reads the 32 bytes back from it. *)
Theorem C121_address_of_uint256 : forall H rs u, hash_ok H -> List.length (u_data u) = 32%nat ->
  zlen (ToAddress H u) = 50 /\ isValidPublicAddress H rs (ToAddress H u) = Ok false /\ cli_address_to_scripthash H rs (ToAddress H u) = Ok (u_data u).
Proof.
  intros H rs u O L. assert (Z50 : zlen (ToAddress H u) = 50).
  { unfold ToAddress. pose proof (address_B58 H (u_data u)) as B. unfold B58Check in B. cbn [app] in B. destruct O as [O _].
    set (rest := u_data u ++ checksum H (z2b 23 :: u_data u)) in *. assert (R : zlen rest = 36).
    { unfold rest. rewrite zlen_app. unfold zlen. rewrite L. unfold checksum. rewrite firstn_length, O. reflexivity. }
    set (X := horner 256 (map b2z (z2b 23 :: rest))).
    assert (I : 1 * 58 ^ 49 <= X < 58 * 58 ^ 49).
    { unfold X. rewrite horner_cons, R. change (b2z (z2b 23)) with 23. pose proof (le2z_bound (rev rest)) as Bd. rewrite zlen_rev, R in Bd.
      assert (1 * 58 ^ 49 <= 23 * 256 ^ 36 /\ 24 * 256 ^ 36 <= 58 * 58 ^ 49) by (vm_compute; split; discriminate). lia. }
    assert (P : 0 < 58 ^ 49) by (vm_compute; reflexivity).
    pose proof (Z.div_mod X (58 ^ 49) ltac:(lia)) as D. pose proof (Z.mod_pos_bound X (58 ^ 49) P) as M.
    apply (B58_first (z2b 23) rest _ 50 (X / 58 ^ 49)); [discriminate|exact B|lia| |].
    - split; [apply Z.div_str_pos; lia|]. apply Z.div_lt_upper_bound; lia.
    - fold X. change (50 - 1) with 49. generalize dependent (58 ^ 49). intros p. intros. nia. }
  split; [exact Z50|]. split; [|apply C48_roundtrip, O]. unfold isValidPublicAddress. rewrite Z50. reflexivity.
Qed.
Print Assumptions C121_address_of_uint256.

(** ** C30: ParseString takes nothing but text: bytes raise Exception unless there are 40 (64) of them, and then
    TypeError, also after 0x; everything else raises TypeError *)
Theorem C30_other_types : 
  (forall s, UInt160_ParseString_any (VStr s) = UInt160_ParseString s /\ UInt256_ParseString_any (VStr s) = UInt256_ParseString s) /\
  (forall v b, bytes_arg v b -> UInt160_ParseString_any v = Raise (if (List.length b =? 40)%nat then TypeError else PlainException) /\
     UInt256_ParseString_any v = Raise (if (List.length b =? 64)%nat then TypeError else PlainException)) /\
  (forall v, (forall s, v <> VStr s) -> (forall b, ~ bytes_arg v b) -> UInt160_ParseString_any v = Raise TypeError /\ UInt256_ParseString_any v = Raise TypeError).
Proof.
  split; [intros s; split; reflexivity|]. split.
  - intros v b B. assert (N : forall k, (zlen b =? Z.of_nat k) = (List.length b =? k)%nat) by (intros k; unfold zlen; lia).
    pose proof (N 40%nat) as N40. pose proof (N 64%nat) as N64. cbn in N40, N64.
    destruct B as [b|b]; unfold UInt160_ParseString_any, UInt256_ParseString_any, ParseString_any;
      (change (zlen b =? 40) with (zlen b =? Z.of_nat 40); change (zlen b =? 64) with (zlen b =? Z.of_nat 64); rewrite !N; split; [destruct (_ =? 40)%nat|destruct (_ =? 64)%nat]; reflexivity).
  - intros v T B. destruct v as [b|b|s|z|b|z| |]; try (split; reflexivity); [destruct (B b); constructor|destruct (B b); constructor|destruct (T s eq_refl)].
Qed.
Print Assumptions C30_other_types.

(** ** base256_encode *)
Theorem C121_base256_ints : forall rounds n w, base256_encode_any rounds (AVal (VInt n)) (AVal (VInt w)) = Some (base256_encode n w).
Proof. intros r n w. unfold base256_encode_any, base256_encode, pad_any. cbn [as_int]. destruct (n >? 0); [reflexivity|]. destruct (n =? 0); reflexivity. Qed.
Print Assumptions C121_base256_ints.
(** a bool or a BigInteger is an int here, except that a BigInteger cannot be a width that asks for padding *)
Theorem C121_base256_ints_too : forall rounds n m w, as_int n = Some m ->
  base256_encode_any rounds (AVal n) w = base256_encode_any rounds (AVal (VInt m)) w /\
  base256_encode_any rounds (AVal n) (AVal (VBool true)) = base256_encode_any rounds (AVal n) (AVal (VInt 1)) /\
  base256_encode_any rounds (AVal n) (AVal (VBool false)) = base256_encode_any rounds (AVal n) (AVal (VInt 0)) /\
  forall k b, base256_encode m 0 = Ok b -> base256_encode_any rounds (AVal n) (AVal (VBig k)) = Some (if k <=? zlen b then Ok b else Raise TypeError).
Proof.
  intros r n m w E. unfold base256_encode_any. rewrite E. cbn [as_int]. split; [reflexivity|]. split; [|split].
  - destruct (m >? 0); [reflexivity|]. destruct (m =? 0); reflexivity.
  - destruct (m >? 0); [reflexivity|]. destruct (m =? 0); reflexivity.
  - intros k b. unfold base256_encode. intros B.
    assert (G : forall l : bytes, Ok (rev l) = Ok b -> Some (do c <- pad_any l (AVal (VBig k)); Ok (rev c)) = Some (if k <=? zlen b then Ok b else Raise TypeError)).
    { intros l El. injection El as <-. f_equal. rewrite zlen_rev. assert (0 <= zlen l) by (unfold zlen; lia). cbn [pad_any].
      destruct (k <=? zlen l) eqn:K; [replace ((k >? 0) && (zlen l <? k)) with false by lia|replace ((k >? 0) && (zlen l <? k)) with true by lia]; reflexivity. }
    destruct (m >? 0); [apply G, B|]. destruct (m =? 0); [apply G, B|discriminate].
Qed.
Print Assumptions C121_base256_ints_too.
Theorem C121_base256_others : forall rounds v w, as_int v = None ->
  base256_encode_any rounds (AVal v) w = Some (Raise TypeError) /\
  (forall m, base256_encode_any rounds (AVal (VInt m)) (AVal v) = Some (Raise (if m <? 0 then ValueError else TypeError))).
Proof.
  intros r v w E. unfold base256_encode_any. rewrite E. split; [reflexivity|]. intros m. cbn [as_int].
  assert (Pd : forall b, pad_any b (AVal v) = Raise TypeError) by (intros b; destruct v; try reflexivity; discriminate).
  destruct (m >? 0) eqn:A; [|destruct (m =? 0) eqn:B]; cbn [rbind]; rewrite ?Pd; cbn [rbind]; f_equal; f_equal.
  - replace (m <? 0) with false by lia. reflexivity.
  - replace (m <? 0) with false by lia. reflexivity.
  - replace (m <? 0) with true by lia. reflexivity.
Qed.
Print Assumptions C121_base256_others.

(** ** base256_encode of a float *)
Local Instance Hprec : FLX.Prec_gt_0 53 := eq_refl _.
Lemma f256_is : float_is f256 256.
Proof. split; [reflexivity|]. split; [reflexivity|]. unfold f256. cbn [SF2R cond_Zopp]. unfold F2R. cbn [Fnum Fexp]. change (bpow radix2 (-44)) with (/ IZR (2 ^ 44))%R. change 4503599627370496%Z with (256 * 2 ^ 44)%Z. rewrite mult_IZR. field. apply not_0_IZR. lia. Qed.
Lemma fits_below t x f : float_is f x -> (0 <= t <= x)%R -> fits t.
Proof.
  intros F T. unfold fits. apply Rle_lt_trans with (Rabs x); [|exact (float_lt _ _ F)]. rewrite <- (float_rnd _ _ F).
  unfold rnd64. rewrite <- !round_NE_abs by auto with typeclass_instances. apply round_le; [auto with typeclass_instances..|]. rewrite !Rabs_pos_eq by lra. lra.
Qed.
Lemma rnd64_mono x y : (x <= y)%R -> (rnd64 x <= rnd64 y)%R.
Proof. intros H. unfold rnd64. apply round_le; auto with typeclass_instances. Qed.
Lemma rnd64_nonneg x : (0 <= x)%R -> (0 <= rnd64 x)%R.
Proof. intros H. rewrite <- rnd64_0. apply rnd64_mono, H. Qed.
Lemma rnd64_up x : (1 <= x)%R -> (rnd64 x <= x * (1 + / 4))%R.
Proof.
  intros H. destruct (rnd64_rel x) as (d & D & E); [rewrite Rabs_pos_eq by lra; lra|]. rewrite E. apply Rabs_le_inv in D.
  assert (bpow radix2 (-53) <= / 4)%R by (change (/ 4)%R with (bpow radix2 (-2)); apply bpow_le; lia). apply Rmult_le_compat_l; lra.
Qed.
Lemma step_small f x : float_is f x -> (0 <= x < 256)%R -> float_is (ffloordiv f f256) 0.
Proof.
  intros F X. assert (Q : (0 <= x / 256 < 1)%R) by lra. replace 0%R with (IZR (Zfloor (x / 256))).
  - apply ffloordiv_is; [exact F|exact f256_is|lra|]. rewrite Rabs_pos_eq by lra. apply Rle_trans with 1%R; [lra|apply (IZR_le 1); lia].
  - f_equal. apply Zfloor_imp. cbn. lra.
Qed.
Lemma step_large f x : float_is f x -> (256 <= x)%R -> exists z, float_is (ffloordiv f f256) z /\ (0 <= z <= x / 64)%R.
Proof.
  intros F X. pose proof (fmod_is f f256 x 256 F f256_is ltac:(lra)) as M. set (T := Ztrunc (x / 256)) in *.
  assert (HT : (0 <= IZR T <= x / 256)%R).
  { unfold T. rewrite Ztrunc_floor by lra. split; [apply IZR_le, Zfloor_lub; lra|apply Zfloor_lb]. }
  assert (HT1 : (x / 256 < IZR T + 1)%R) by (unfold T; rewrite Ztrunc_floor by lra; apply Zfloor_ub).
  set (r := (x - 256 * IZR T)%R) in *. assert (R0 : (0 <= r < 256)%R) by (unfold r; lra).
  unfold ffloordiv. set (md := fmod f f256) in *.
  pose proof (fsub_is f md x r F M (fits_below (x - r) x f F ltac:(unfold r; lra))) as S1. set (a := rnd64 (x - r)) in *.
  assert (A : (0 <= a <= x)%R). { unfold a. split; [apply rnd64_nonneg; lra|]. rewrite <- (float_rnd _ _ F) at 2. apply rnd64_mono. lra. }
  pose proof (fdiv_is _ _ a 256 S1 f256_is ltac:(lra) (fits_below (a / 256) x f F ltac:(lra))) as S2. set (b := rnd64 (a / 256)) in *.
  assert (B : (0 <= b <= x / 128)%R).
  { unfold b. split; [apply rnd64_nonneg; lra|]. apply Rle_trans with (rnd64 (x / 256)); [apply rnd64_mono; lra|]. pose proof (rnd64_up (x / 256) ltac:(lra)). lra. }
  set (div := fdiv (fsub f md) f256) in *. cbv zeta.
  assert (Nm : fneg md = false). { destruct (fneg md) eqn:E; [|reflexivity]. apply (fneg_is _ _ M) in E. lra. }
  rewrite Nm. change (fneg f256) with false. cbn [xorb]. rewrite Bool.andb_false_r.
  destruct (fis0 div) eqn:Z0; [exists 0%R; split; [apply zero_is|lra]|].
  pose proof (ffloor_is _ _ S2) as S3. assert (Fl : (0 <= IZR (Zfloor b) <= b)%R) by (split; [apply IZR_le, Zfloor_lub; lra|apply Zfloor_lb]).
  destruct (SFltb fhalf (fsub div (ffloor div))); [|exists (IZR (Zfloor b)); split; [exact S3|lra]].
  exists (rnd64 (IZR (Zfloor b) + 1)). split; [apply (fadd_is _ _ _ _ S3 fone_is), (fits_below _ x f F); lra|].
  split; [apply rnd64_nonneg; lra|]. pose proof (rnd64_up (IZR (Zfloor b) + 1) ltac:(lra)). lra.
Qed.
Lemma digits_end k : forall f x, float_is f x -> (0 <= x < 256 * IZR (64 ^ Z.of_nat k))%R ->
  exists n, forall rounds, (n <= rounds)%nat -> exists arr, float_digits rounds f = Some arr /\ (x <> 0%R -> arr <> []).
Proof.
  assert (Zero : forall f, float_is f 0 -> ftruthy f = false) by (intros f F; pose proof (proj2 (fis0_is f 0 F) eq_refl) as E; unfold fis0 in E; apply Bool.negb_true_iff, E).
  assert (Step : forall f z n, (forall rounds, (n <= rounds)%nat -> exists arr, float_digits rounds (ffloordiv f f256) = Some arr /\ (z <> 0%R -> arr <> [])) ->
    forall x, float_is f x -> exists n, forall rounds, (n <= rounds)%nat -> exists arr, float_digits rounds f = Some arr /\ (x <> 0%R -> arr <> [])).
  { intros f z n I x F. exists (S n). intros [|r] L; [lia|]. cbn [float_digits]. destruct (ftruthy f) eqn:E.
    - destruct (I r ltac:(lia)) as (arr & -> & _). eexists. split; [reflexivity|]. intros _. discriminate.
    - exists []. split; [reflexivity|]. intros X. exfalso. apply X. apply (fis0_is f x F). unfold fis0. rewrite E. reflexivity. }
  induction k as [|k IH]; intros f x F X.
  - apply (Step f 0%R 1%nat); [|exact F]. intros [|r] L; [lia|]. cbn [float_digits]. rewrite (Zero (ffloordiv f f256) (step_small f x F ltac:(cbn in X; lra))). exists []. split; [reflexivity|lra].
  - destruct (Rlt_or_le x 256) as [Sm|La].
    + apply (Step f 0%R 1%nat); [|exact F]. intros [|r] L; [lia|]. cbn [float_digits]. rewrite (Zero (ffloordiv f f256) (step_small f x F ltac:(lra))). exists []. split; [reflexivity|lra].
    + destruct (step_large f x F La) as (z & Hz & Bz). destruct (IH _ z Hz) as (n & I); [|exact (Step f z n I x F)].
      split; [lra|]. rewrite Nat2Z.inj_succ, Z.pow_succ_r, mult_IZR in X by lia. lra.
Qed.
(** A float stands for no bytes: negative ones and nan raise ValueError, zeros are like 0, all others raise TypeError
    (after the loop has ended, as it does for all of them) ... *)
Theorem C121_base256_float : forall f x w, float_is f x ->
  ((x < 0)%R -> forall rounds, base256_encode_any rounds (AFlt f) w = Some (Raise ValueError)) /\
  (x = 0%R -> forall rounds, base256_encode_any rounds (AFlt f) w = base256_encode_any rounds (AVal (VInt 0)) w) /\
  ((0 < x)%R -> exists n, forall rounds, (n <= rounds)%nat -> base256_encode_any rounds (AFlt f) w = Some (Raise TypeError)).
Proof.
  intros f x w F. assert (C0 : SFcompare (S754_zero false) f = Some (Rcompare 0 x)) by (apply fcompare_is; [apply zero_is|exact F]).
  assert (C1 : SFcompare f (S754_zero false) = Some (Rcompare x 0)) by (apply fcompare_is; [exact F|apply zero_is]).
  unfold base256_encode_any, SFltb, SFeqb. rewrite C0, C1. split; [|split].
  - intros X r. rewrite Rcompare_Gt by lra. rewrite Rcompare_Lt by lra. reflexivity.
  - intros -> r. rewrite Rcompare_Eq by lra. reflexivity.
  - intros X. rewrite Rcompare_Lt by lra. 
    assert (K : exists k, (x < 256 * IZR (64 ^ Z.of_nat k))%R).
    { exists (Z.to_nat (up x)). rewrite Z2Nat.id by (apply le_IZR; destruct (archimed x); lra). destruct (archimed x) as [U _]. apply Rlt_le_trans with (1 := Rgt_lt _ _ U).
      assert (P : up x <= 64 ^ up x) by (assert (0 <= up x) by (apply le_IZR; lra); apply Z.lt_le_incl, Z.pow_gt_lin_r; lia).
      apply IZR_le in P. assert (0 < IZR (up x))%R by lra. lra. }
    destruct K as [k K]. destruct (digits_end k f x F ltac:(lra)) as (n & D). exists n. intros r L. destruct (D r L) as (arr & -> & N).
    assert (N' : rev arr <> []). { intros E. apply (f_equal (@rev _)) in E. rewrite rev_involutive in E. apply N; [lra|exact E]. }
    destruct (rev arr) as [|d l]; [congruence|]. reflexivity.
Qed.
Print Assumptions C121_base256_float.
(** ... but for infinity the loop never ends: no number of rounds is enough. *)
Theorem C121_base256_infinity : forall w rounds,
  base256_encode_any rounds (AFlt (S754_infinity false)) w = None /\
  base256_encode_any rounds (AFlt (S754_infinity true)) w = Some (Raise ValueError) /\ base256_encode_any rounds (AFlt S754_nan) w = Some (Raise ValueError).
Proof.
  intros w r. split; [|split; reflexivity]. unfold base256_encode_any. change (SFltb (S754_zero false) (S754_infinity false)) with true. cbv iota.
  assert (N : forall k, float_digits k S754_nan = None).
  { induction k as [|k IH]; [reflexivity|]. cbn [float_digits]. change (ftruthy S754_nan) with true. cbv iota. change (ffloordiv S754_nan f256) with (@S754_nan). rewrite IH. reflexivity. }
  destruct r as [|r]; [reflexivity|]. cbn [float_digits]. change (ftruthy (S754_infinity false)) with true. cbv iota. change (ffloordiv (S754_infinity false) f256) with S754_nan. rewrite N. reflexivity.
Qed.
Print Assumptions C121_base256_infinity.
(** a float width: ValueError and the like come first; TypeError if it asks for padding, otherwise no padding *)
Theorem C121_base256_float_width : forall rounds n b f x, base256_encode n 0 = Ok b -> float_is f x ->
  base256_encode_any rounds (AVal (VInt n)) (AFlt f) = Some (if Rle_bool x (IZR (zlen b)) then Ok b else Raise TypeError).
Proof.
  intros r n b f x B F. unfold base256_encode_any. cbn [as_int]. unfold base256_encode in B.
  assert (G : forall l : bytes, Ok (rev l) = Ok b -> Some (do c <- pad_any l (AFlt f); Ok (rev c)) = Some (if Rle_bool x (IZR (zlen b)) then Ok b else Raise TypeError)).
  { intros l El. injection El as <-. f_equal. rewrite zlen_rev. assert (0 <= zlen l) by (unfold zlen; lia). cbn [pad_any]. rewrite (cmp_int_float_is _ _ _ F). unfold SFltb.
    rewrite (fcompare_is (S754_zero false) f 0 x (zero_is false) F). assert (0 <= IZR (zlen l))%R by (apply IZR_le; assumption).
    destruct (Rle_bool_spec x (IZR (zlen l))) as [K|K].
    - destruct (Rcompare_spec (IZR (zlen l)) x); [lra|rewrite Bool.andb_false_r; reflexivity|rewrite Bool.andb_false_r; reflexivity].
    - rewrite !Rcompare_Lt by lra. reflexivity. }
  destruct (n >? 0); [apply G, B|]. destruct (n =? 0); [apply G, B|discriminate].
Qed.
Print Assumptions C121_base256_float_width.

Definition three_hundred : pyfloat := S754_finite false 5277655813324800 (-44).
Example C121_example : float_is three_hundred 300 /\ base256_encode_any 3 (AFlt three_hundred) (AVal (VInt 0)) = Some (Raise TypeError) /\
  base256_encode_any 2 (AFlt three_hundred) (AVal (VInt 0)) = None /\
  float_digits 3 three_hundred = Some [S754_finite false 6192449487634432 (-47); fone] /\
  base256_encode_any 0 (AVal (VBig 258)) (AVal (VBig 2)) = Some (Ok [x02; x01]) /\ base256_encode_any 0 (AVal (VBig 258)) (AVal (VBig 3)) = Some (Raise TypeError) /\
  base256_encode_any 0 (AVal (VBool true)) (AVal (VBool true)) = Some (Ok [x01]) /\ base256_encode_any 0 (AFlt (S754_zero true)) (AVal (VInt 2)) = Some (Ok [x00; x00]) /\
  base256_encode_any 0 (AVal (VInt 5)) (AFlt fone) = Some (Ok [x05]) /\ base256_encode_any 0 (AVal (VInt 5)) (AFlt three_hundred) = Some (Raise TypeError) /\
  pubkey_to_redeem_any (VStr [48; 50]) = Raise TypeError /\ pubkey_to_redeem_any (VBytearray [x30; x32]) = Ok [x21; x02; xac].
Proof.
  split; [|repeat split; vm_compute; reflexivity]. split; [reflexivity|]. split; [reflexivity|]. unfold three_hundred. cbn [SF2R cond_Zopp]. unfold F2R. cbn [Fnum Fexp].
  change (bpow radix2 (-44)) with (/ IZR (2 ^ 44))%R. change 5277655813324800%Z with (300 * 2 ^ 44)%Z. rewrite mult_IZR. field. apply not_0_IZR. lia.
Qed.
Print Assumptions C121_example.
