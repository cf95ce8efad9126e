(** * P_ECDSA: what signing, verifying and decompressing really do (C66, C77-C79) *)
From Coq Require Import ZArith Znumtheory Lia List Bool.
From Verif Require Import M_Py M_Float M_ECCurve L_Prime L_Field L_EC L_EC2 L_EC3 L_Mul S_EC.
Import ListNotations.
Open Scope Z_scope.

(** ** C66: multiplying by 1 does not give the point back.  y^2 = x^3 + x + 6 over F_7 has 11
    points, so the true multiple by 1 is the point itself. *)
Theorem C66_not_identity : exists c P Q, prime (c_p c) /\ is_point (c_p c) (c_a c) (c_b c) P /\ is_point (c_p c) (c_a c) (c_b c) Q /\ P <> Q /\ ec_mul c P (AInt 1) = Ok Q.
Proof.
  exists (mkCurve 7 1 6), (1, 1), (2, 3). split; [exact pr_7|].
  split; [split; [split; cbn; lia|right; exists (-1); reflexivity]|]. split; [split; [split; cbn; lia|right; exists (-1); reflexivity]|]. split; [discriminate|].
  vm_compute. reflexivity.
Qed.
Print Assumptions C66_not_identity.

(** ** C77: the object made by secp256r1() can neither sign nor verify nor recover keys *)
Lemma never {A} (r : res A) : (forall a, r <> Ok a) -> exists e, r = Raise e.
Proof. destruct r as [a|e]; [intros H; destruct (H a eq_refl)|exists e; reflexivity]. Qed.
Theorem C77_never_returns : forall m x k pk r s flag,
  (exists e, ecdsa_sign ECDSA_secp256r1 m x k = Raise e) /\ (exists e, ecdsa_verify ECDSA_secp256r1 m pk r s = Raise e) /\
  (exists e, findpk ECDSA_secp256r1 m r s flag = Raise e).
Proof.
  intros m x k pk r s flag. unfold ecdsa_sign, ecdsa_verify, findpk. cbn [e_n ECDSA_secp256r1].
  split; [|split].
  - apply never. intros a. destruct (integer m); [|discriminate]. destruct (integer x); [|discriminate]. destruct (integer k); [|discriminate]. cbn [rbind].
    destruct (ec_mul _ _ _); discriminate.
  - apply never. intros a. destruct (integer m); [|discriminate]. destruct (integer r); [|discriminate]. destruct (integer s); discriminate.
  - apply never. intros a. destruct (integer m); [|discriminate]. destruct (integer r); [|discriminate]. destruct (integer s); [|discriminate]. cbn [rbind].
    destruct (decompress _ _ _); discriminate.
Qed.
Print Assumptions C77_never_returns.
(** for integers (the secret up to 2^1024) the exception is the TypeError of reducing modulo a
    field object *)
Theorem C77_type_error : forall m x k pk r s, Z.abs k <= 2 ^ 1024 ->
  ecdsa_sign ECDSA_secp256r1 (AInt m) (AInt x) (AInt k) = Raise TypeError /\
  ecdsa_verify ECDSA_secp256r1 (AInt m) pk (AInt r) (AInt s) = Raise TypeError.
Proof.
  intros m x k pk r s K. split; [|reflexivity]. unfold ecdsa_sign. cbn [integer rbind e_curve e_G e_n ECDSA_secp256r1].
  destruct (ec_mul_ok secp256r1 G256 k K) as [Q E]. change (ec_mul secp256r1 G256 (AVal k)) with (ec_mul secp256r1 G256 (AInt k)). rewrite E. reflexivity.
Qed.
Print Assumptions C77_type_error.
(** recovering the key from two signatures never returns, on any curve *)
Theorem C77_findpk2 : forall E r1 s1 r2 s2 f1 f2, exists e, findpk2 E r1 s1 r2 s2 f1 f2 = Raise e.
Proof.
  intros E r1 s1 r2 s2 f1 f2. apply never. intros a. unfold findpk2. destruct (integer r1); [|discriminate]. cbn [rbind]. destruct (decompress _ _ _); [|discriminate]. cbn [rbind].
  destruct (integer r2); [|discriminate]. cbn [rbind]. destruct (decompress _ _ _); [|discriminate]. cbn [rbind]. 
  destruct (match e_n E with OInt n => _ | OField => _ end) as [d|]; [|discriminate]. cbn [rbind]. destruct (integer d); [|discriminate]. cbn [rbind]. destruct (ec_mul _ _ _); [|discriminate]. cbn [rbind].
  destruct (ec_mul _ _ _); discriminate.
Qed.
Print Assumptions C77_findpk2.
(** the module-level signing helper raises TypeError whatever it is given *)
Theorem C77_sign_helper : forall message prikey pubkey, SignSecp256R1 message prikey pubkey = Raise TypeError.
Proof. reflexivity. Qed.
Print Assumptions C77_sign_helper.

(** ** C78: a signature made with the private key is rejected with the matching public key.
    The base point (1,1) of y^2 = x^3 + x + 6 over F_7 has the prime order 11. *)
Theorem C78_rejected : exists E m x k r s Y n, e_n E = OInt n /\ prime n /\ 0 < m < n /\ 0 < x < n /\ 0 < k < n /\ 0 < r < n /\ 0 < s < n /\
  is_point (c_p (e_curve E)) (c_a (e_curve E)) (c_b (e_curve E)) (e_G E) /\
  calcpub E (AInt x) = Ok Y /\ ecdsa_sign E (AInt m) (AInt x) (AInt k) = Ok (r, s) /\ ecdsa_verify E (AInt m) Y (AInt r) (AInt s) = Ok false.
Proof.
  exists (mkECDSA (mkCurve 7 1 6) (1, 1) (OInt 11)), 2, 1, 1, 2, 4, (2, 3), 11. split; [reflexivity|]. split; [apply trial_prime; [lia|vm_compute; reflexivity]|].
  do 5 (split; [lia|]). split; [split; [split; cbn; lia|right; exists (-1); reflexivity]|].
  split; [vm_compute; reflexivity|]. split; vm_compute; reflexivity.
Qed.
Print Assumptions C78_rejected.

(** ** C79: decompress takes the exponent (p + 1) / 4 of the square root through a float *)
Lemma half_exp_k1 : int_div (c_p secp256k1 + 1) 4 = Ok (2 ^ 254).
Proof. vm_compute. reflexivity. Qed.
Lemma half_exp_r1 : int_div (c_p secp256r1 + 1) 4 = Ok (2 ^ 254 - 2 ^ 222).
Proof. vm_compute. reflexivity. Qed.
Lemma fsqrt_form p v flag e : p mod 8 = 3 \/ p mod 8 = 7 -> int_div (p + 1) 4 = Ok e -> 0 <= e -> 0 < p -> v <> 0 ->
  exists y, fsqrt p v flag = Ok y /\ ((v ^ e mod p) mod 2 = flag -> y = v ^ e mod p) /\ ((v ^ e mod p) mod 2 <> flag -> y = p - v ^ e mod p).
Proof.
  intros M I E P V. unfold fsqrt. replace (v =? 0) with false by lia.
  replace ((p mod 8 =? 3) || (p mod 8 =? 7)) with true by (destruct M as [-> | ->]; reflexivity).
  unfold fpow_float. rewrite I. cbn [rbind]. unfold fpow. rewrite modpow_spec by lia.
  destruct (Z.eqb_spec ((v ^ e mod p) mod 2) flag) as [F|F]; eexists; (split; [reflexivity|]); split; intros G; try reflexivity; contradiction.
Qed.
Theorem C79_exponent : forall c x flag, (c = secp256k1 \/ c = secp256r1) ->
  let v := (x * x * x + c_a c * x + c_b c) mod c_p c in
  let e := if c_a c =? 0 then 2 ^ 254 else 2 ^ 254 - 2 ^ 222 in
  let w := v ^ e mod c_p c in
  exists y, decompress c x flag = Ok (x, y) /\ (w mod 2 = flag -> y = w) /\ (w mod 2 <> flag -> y = c_p c - w).
Proof.
  intros c x flag C v e w. assert (P : 0 < c_p c) by (destruct C as [-> | ->]; reflexivity).
  assert (V : v <> 0).
  { intros V. assert (K : cong (c_p c) (x * x * x + c_a c * x + c_b c) 0).
    { rewrite <- (cong_mod (c_p c) (x * x * x + c_a c * x + c_b c)) by exact P. fold v. rewrite V. reflexivity. }
    clear V. clearbody v e. destruct C as [-> | ->]; [exact (k1_no_root x K)|exact (r1_no_root x K)]. }
  assert (R : curve_rhs c x = v).
  { apply (cong_small (c_p c)); [apply rhs_range, P|apply Z.mod_pos_bound, P|]. rewrite rhs_cong by exact P. unfold v. symmetry. apply cong_mod, P. }
  destruct (fsqrt_form (c_p c) (curve_rhs c x) flag e) as (y & F & Y); try assumption.
  - destruct C as [-> | ->]; right; reflexivity.
  - destruct C as [-> | ->]; [exact half_exp_k1|exact half_exp_r1].
  - destruct C as [-> | ->]; discriminate.
  - rewrite R. exact V.
  - rewrite R in *. exists y. unfold decompress. rewrite R, F. split; [reflexivity|exact Y].
Qed.
Print Assumptions C79_exponent.
(** so the point returned is on the curve only if v^(2e-1) = 1; on secp256k1 the abscissa 1 of
    a genuine point is not decompressed to a point of the curve, for either flag *)
Lemma no_root_pow p v e y : 0 < p -> 0 <= v < p -> 0 <= e -> (modpow v (e + e) p =? v) = false -> y = v ^ e mod p \/ y = p - v ^ e mod p -> ~ cong p (y * y) v.
Proof.
  intros P V E0 K Y I. apply Z.eqb_neq in K. apply K. rewrite modpow_spec by lia. rewrite Z.pow_add_r by exact E0.
  rewrite <- (Z.mod_small v p V). apply cong_iff; [exact P|]. rewrite (Z.mod_small v p V). transitivity (y * y); [|exact I]. symmetry. destruct Y as [-> | ->].
  - apply cong_mul; apply cong_mod, P.
  - assert (Q : cong p (p - v ^ e mod p) (- v ^ e)). { transitivity (p - v ^ e); [apply cong_sub; [reflexivity|apply cong_mod, P]|]. exists 1. ring. }
    transitivity (- v ^ e * - v ^ e); [apply cong_mul; exact Q|]. apply cong_eq. ring.
Qed.
Lemma k1_nonneg : 0 <= 2 ^ 254. Proof. apply Z.pow_nonneg. lia. Qed.
Lemma k1_at_1 : (modpow 8 (2 ^ 254 + 2 ^ 254) (c_p secp256k1) =? 8) = false.
Proof. vm_cast_no_check (eq_refl false). Qed.
Theorem C79_wrong : square (c_p secp256k1) (1 * 1 * 1 + c_a secp256k1 * 1 + c_b secp256k1) /\
  forall flag, exists y, decompress secp256k1 1 flag = Ok (1, y) /\ isoncurve secp256k1 (1, y) = false.
Proof.
  split.
  - exists 29896722852569046015560700294576055776214335159245303116488692907525646231534. apply L_Fermat.divide_mod_eq; [reflexivity|]. vm_compute. reflexivity.
  - intros flag. pose proof (C79_exponent secp256k1 1 flag (or_introl eq_refl)) as (y & D & Y1 & Y2).
    assert (Y : let w := ((1 * 1 * 1 + c_a secp256k1 * 1 + c_b secp256k1) mod c_p secp256k1) ^ (if c_a secp256k1 =? 0 then 2 ^ 254 else 2 ^ 254 - 2 ^ 222) mod c_p secp256k1 in
      y = w \/ y = c_p secp256k1 - w). { intros w. fold w in Y1, Y2. clearbody w. destruct (Z.eq_dec (w mod 2) flag) as [E|E]; [left; exact (Y1 E)|right; exact (Y2 E)]. }
    clear Y1 Y2. cbv zeta in Y.
    exists y. split; [exact D|]. destruct (isoncurve secp256k1 (1, y)) eqn:I; [|reflexivity]. exfalso.
    assert (P : 0 < c_p secp256k1) by reflexivity. apply isoncurve_iff in I; [|exact P]. destruct I as [I|I]; [discriminate|].
    unfold equation in I. rewrite same_cong in I. cbn [fst snd] in I.
    change ((1 * 1 * 1 + c_a secp256k1 * 1 + c_b secp256k1) mod c_p secp256k1) with 8 in Y. change (if c_a secp256k1 =? 0 then 2 ^ 254 else 2 ^ 254 - 2 ^ 222) with (2 ^ 254) in Y.
    change (1 * 1 * 1 + c_a secp256k1 * 1 + c_b secp256k1) with 8 in I. assert (P8 : 0 <= 8 < c_p secp256k1) by (split; [discriminate|reflexivity]).
    apply (no_root_pow (c_p secp256k1) 8 (2 ^ 254) y P P8 k1_nonneg k1_at_1 Y I).
Qed.
Print Assumptions C79_wrong.
(** ** C77: for integers the exception of findpk is the TypeError too *)
Theorem C77_findpk_type_error : forall m r s flag, findpk ECDSA_secp256r1 (AInt m) (AInt r) (AInt s) flag = Raise TypeError.
Proof.
  intros m r s flag. unfold findpk. cbn [integer rbind e_curve e_n ECDSA_secp256r1].
  destruct (C79_exponent secp256r1 r flag (or_intror eq_refl)) as (y & -> & _). reflexivity.
Qed.
Print Assumptions C77_findpk_type_error.
