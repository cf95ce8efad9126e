(** * P_Bitcoin2: more on C99-C101 (addresses, NEP-2, malleability, binding), and examples *)
From Coq Require Import ZArith Znumtheory Lia ZifyBool List String.
From Verif Require Import M_Py M_Hash M_Float M_Base58 M_UInt M_Helper M_ECCurve M_KeyPair M_Crypto M_Bitcoin.
From Verif Require Import L_Bytes L_IO L_Hex L_Prime L_Prime2 L_Field L_EC L_EC2 L_EC3 L_Crypto L_Mult L_Order L_Bitcoin L_Ecdsa S_IO S_IO2 S_EC S_Address S_KeyPair S_Crypto S_Group S_Signature P_Helper P_KeyPair P_Crypto P_Group P_Bitcoin.
Import ListNotations.
Open Scope Z_scope.
Lemma p_2n : c_p secp256r1 < 2 * n_r1. Proof. reflexivity. Qed.
Lemma p_odd : Z.even (c_p secp256r1) = false. Proof. reflexivity. Qed.
#[local] Opaque n_r1.

(** ** C99 addresses and NEP-2 *)
Lemma finite_point Q : point_of secp256r1 Q -> Q <> (0, 0) -> ~ at_infinity (fst Q) (snd Q).
Proof.
  intros HQ N (_ & Y). apply (y_r1 Q HQ N). rewrite same_cong in Y. exact Y.
Qed.
(** a point is determined by x and the parity of y *)
Lemma by_parity P Q : point_of secp256r1 P -> point_of secp256r1 Q -> P <> (0, 0) -> Q <> (0, 0) -> fst P = fst Q -> Z.even (snd P) = Z.even (snd Q) -> P = Q.
Proof.
  intros HP HQ NP NQ X V. pose proof (L_Fp2.not_origin secp256r1 P HP NP) as EP. pose proof (L_Fp2.not_origin secp256r1 Q HQ NQ) as EQ.
  destruct HP as [[_ BP] _], HQ as [[_ BQ] _]. destruct P as [x y], Q as [x' y']. cbn [fst snd] in *. subst x'.
  assert (Hp : prime (c_p secp256r1)) by apply E_r1. pose proof (prime_ge_2 _ Hp) as G2.
  destruct (same_x (c_p secp256r1) _ _ (x, y) (x, y') Hp EP EQ (cong_refl _ _)) as [S|S]; cbn [snd] in S.
  - f_equal. apply (cong_iff (c_p secp256r1)) in S; [|lia]. rewrite !Z.mod_small in S by lia. exact S.
  - destruct S as [q S]. pose proof p_odd as Od. assert (Q1 : q = 0 \/ q = 1) by nia. destruct Q1 as [-> | ->]; [f_equal; lia|].
    exfalso. assert (E1 : Z.even (y + y') = false) by (replace (y + y') with (c_p secp256r1) by lia; exact Od). rewrite Z.even_add, V in E1. destruct (Z.even y'); discriminate.
Qed.
(** for every key other than 0 and below the order, KeyPair succeeds and GetAddress returns the
    address of the public key *)
Theorem C99_address : forall H L v k, hash_ok H -> bytes_arg v k -> length k = 32%nat -> 0 < num_be k < n_r1 ->
  exists kp a, new_KeyPair H (real_keys L) v = Ok kp /\ kp_PrivateKey kp = k /\ GetAddress H kp = Ok a /\ zlen a = 34 /\
  key_address H (fst (r1_times (num_be k) G256)) (snd (r1_times (num_be k) G256)) a.
Proof.
  intros H L v k O A Lk B. destruct (proj1 (C99_public_key H L v k O A Lk) ltac:(lia)) as (h & Eh). eexists. set (Q := r1_times (num_be k) G256) in *.
  assert (N : Q <> (0, 0)). { intros X. unfold Q in X. rewrite (r1_inf (num_be k)) in X by lia. apply Z.divide_pos_le in X; lia. }
  destruct (C54_address H (mkKeyPair k Q h) (fst Q) (snd Q) O) as (a & enc & redeem & Ga & Ka & Za & _).
  { cbn [kp_PublicKey]. destruct Q; reflexivity. } { apply (r1_bounds Q), r1_pt, G_r1. } { apply finite_point; [apply r1_pt, G_r1|exact N]. }
  exists a. split; [exact Eh|]. split; [reflexivity|]. split; [exact Ga|]. split; [exact Za|exact Ka].
Qed.
Print Assumptions C99_address.
(** two private keys with the same address are equal, or exhibit a collision of RIPEMD-160 of
    SHA-256 on inputs of 35 bytes *)
Theorem C99_address_binding : forall H L v v' k k' kp kp' a, hash_ok H -> bytes_arg v k -> bytes_arg v' k' -> length k = 32%nat -> length k' = 32%nat ->
  new_KeyPair H (real_keys L) v = Ok kp -> new_KeyPair H (real_keys L) v' = Ok kp' -> GetAddress H kp = Ok a -> GetAddress H kp' = Ok a ->
  k = k' \/ exists s s', s <> s' /\ length s = 35%nat /\ length s' = 35%nat /\ ripemd160 H (sha256 H s) = ripemd160 H (sha256 H s').
Proof.
  intros H L v v' k k' kp kp' a O A A' Lk Lk' Ek Ek' Ga Ga'.
  assert (Get : forall v k kp, bytes_arg v k -> length k = 32%nat -> new_KeyPair H (real_keys L) v = Ok kp -> GetAddress H kp = Ok a ->
    key_address H (fst (kp_PublicKey kp)) (snd (kp_PublicKey kp)) a /\ point_of secp256r1 (kp_PublicKey kp) /\ kp_PublicKey kp <> (0, 0)).
  { clear - O. intros v k kp A Lk Ek Ga. destruct (C99_point H L v k kp O A Lk Ek) as (P & I & _ & B). pose proof (num_be_bound k) as [B0 _].
    destruct (Z.eq_dec (num_be k) 0) as [Z|NZ].
    - exfalso. apply I in Z. rewrite (C54_infinity H kp 0 0 Z) in Ga; [discriminate|]. split; apply cong_refl.
    - destruct (C99_address H L v k O A Lk ltac:(lia)) as (kp2 & a2 & Ek2 & _ & Ga2 & _ & K). assert (kp2 = kp) as -> by congruence. assert (a2 = a) as -> by congruence.
      destruct (proj1 (C99_public_key H L v k O A Lk) B) as (h & Eh). assert (Q : kp_PublicKey kp = r1_times (num_be k) G256) by (assert (kp = mkKeyPair k (r1_times (num_be k) G256) h) as -> by congruence; reflexivity).
      rewrite <- Q in K. split; [exact K|]. split; [exact P|]. tauto. }
  destruct (Get v k kp A Lk Ek Ga) as (K1 & P1 & N1). destruct (Get v' k' kp' A' Lk' Ek' Ga') as (K2 & P2 & N2).
  destruct (C54_binding H _ _ _ _ a O K1 K2) as [(X & Y)|C]; [left|right; exact C].
  apply (C99_injective H H L L v v' k k' kp kp' O O A A' Lk Lk' Ek Ek'). apply by_parity; assumption.
Qed.
Print Assumptions C99_address_binding.
(** the key of 32 zero bytes is accepted; its public key is the point at infinity, and GetAddress
    and ExportNEP2 raise binascii.Error *)
Theorem C99_zero_key : forall H L v, hash_ok H -> bytes_arg v (repeat x00 32) -> exists kp, new_KeyPair H (real_keys L) v = Ok kp /\
  kp_PublicKey kp = (0, 0) /\ GetAddress H kp = Raise BinasciiError /\
  forall pass, 2 <= zlen pass -> ExportNEP2 H (real_keys L) kp pass = Raise BinasciiError.
Proof.
  intros H L v O A. destruct (proj1 (C99_public_key H L v _ O A eq_refl) ltac:(pose proof n_pos; cbn; lia)) as (h & Eh). eexists. split; [exact Eh|].
  assert (E0 : r1_times (num_be (repeat x00 32)) G256 = (0, 0)) by reflexivity. rewrite E0. split; [reflexivity|].
  assert (Ga : GetAddress H (mkKeyPair (repeat x00 32) (0, 0) h) = Raise BinasciiError) by (apply (C54_infinity H _ 0 0); [reflexivity|split; apply cong_refl]).
  split; [exact Ga|]. intros pass Lp. unfold ExportNEP2. replace (zlen pass <? 2) with false by lia. rewrite Ga. reflexivity.
Qed.
Print Assumptions C99_zero_key.
(** NEP-2 export and import with the real key derivation: for every key other than 0 and below
    the order *)
Theorem C99_nep2 : forall H L rs v k pass pass' pwd, hash_ok H -> keylib_ok L -> bytes_arg v k -> length k = 32%nat -> 0 < num_be k < n_r1 -> 2 <= zlen pass ->
  utf8_encode (nfc L pass) = Ok pwd -> nfc L pass' = nfc L pass ->
  exists kp t, new_KeyPair H (real_keys L) v = Ok kp /\ ExportNEP2 H (real_keys L) kp pass = Ok t /\ PrivateKeyFromNEP2 H (real_keys L) rs (VStr t) pass' = Ok k.
Proof.
  intros H L rs v k pass pass' pwd O K A Lk B Lp U E. destruct (C99_address H L v k O A Lk B) as (kp & a & Ek & _ & Ga & _).
  assert (Ek' : new_KeyPair H (real_keys L) (VBytes k) = Ok kp). { rewrite <- Ek. destruct A; reflexivity. }
  destruct (C52_roundtrip H (real_keys L) rs k kp a pass pass' pwd O (C99_keylib L K) Lk Ek' Ga Lp U E) as (t & T & I). exists kp, t. auto.
Qed.
Print Assumptions C99_nep2.

(** ** C101 the other signature, and how many digests a signature fits *)
Definition verification_point (Q : Z * Z) (z r w : Z) : Z * Z := r1_add (r1_times (z * w mod n_r1) G256) (r1_times (r * w mod n_r1) Q).
Lemma sum_pt a b Q : point_of secp256r1 Q -> point_of secp256r1 (r1_add (r1_times a G256) (r1_times b Q)).
Proof. intros HQ. apply (add_pt secp256r1 E_r1); apply r1_pt; [exact G_r1|exact HQ]. Qed.
Lemma opposite_exponents Q u : point_of secp256r1 Q -> r1_times n_r1 Q = (0, 0) -> forall v, 0 <= u < n_r1 -> 0 <= v < n_r1 -> cong n_r1 (u + v) 0 -> r1_add (r1_times u Q) (r1_times v Q) = (0, 0).
Proof.
  intros HQ O v U V C. unfold r1_add, r1_times. rewrite <- (times_add secp256r1 E_r1) by (assumption || lia). apply cong_0 in C. destruct C as [q C].
  assert (q = 0 \/ q = 1) as [-> | ->] by nia; [replace (u + v) with 0 by lia; reflexivity|replace (u + v) with n_r1 by lia; exact O].
Qed.
Lemma opposite_points A B : point_of secp256r1 A -> point_of secp256r1 B -> r1_add A B = (0, 0) -> fst A = fst B /\ (A = (0, 0) <-> B = (0, 0)).
Proof.
  intros HA HB S. assert (I : forall X, r1_add X (0, 0) = X) by (exact (add_inf secp256r1)).
  assert (D : A = (0, 0) \/ A <> (0, 0)) by (destruct A as [[] []]; (left; reflexivity) || (right; discriminate)).
  destruct D as [-> | N].
  - unfold r1_add in S. rewrite (comm secp256r1 E_r1 _ _ HA HB) in S. fold r1_add in S. rewrite I in S. rewrite S. split; [reflexivity|tauto].
  - destruct (opposite_pt secp256r1 E_r1 y_r1 A HA N) as (HO & NO). assert (B = opposite secp256r1 A) as ->.
    { apply (cancel secp256r1 E_r1 _ _ A HB HO HA). rewrite (comm secp256r1 E_r1 B A HB HA), (comm secp256r1 E_r1 _ A HO HA). fold r1_add. rewrite S. symmetry. apply (opposite_sum secp256r1 E_r1 y_r1 A HA N). }
    split; [reflexivity|]. tauto.
Qed.
Lemma valid_mirror x y z r s : acceptable_key x y -> ecdsa_valid (x, y) z r s -> ecdsa_valid (x, y) z r (n_r1 - s).
Proof.
  intros (P & N & O & _) (R & S & w & W & V). pose proof n_pos as NP. unfold ecdsa_valid. split; [exact R|]. split; [lia|].
  exists (- w). split. { rewrite same_cong in *. transitivity (w * s); [exists (- w); ring|exact W]. } cbv zeta in *.
  set (A := r1_add (r1_times (z * w mod n_r1) G256) (r1_times (r * w mod n_r1) (x, y))) in *. set (B := r1_add (r1_times (z * - w mod n_r1) G256) (r1_times (r * - w mod n_r1) (x, y))).
  assert (Opp : forall a, cong n_r1 (a * w mod n_r1 + a * - w mod n_r1) 0) by (intros a; rewrite !(cong_mod n_r1) by lia; apply cong_eq; ring).
  assert (Rg : forall a, 0 <= a mod n_r1 < n_r1) by (intros a; apply Z.mod_pos_bound; lia).
  assert (OG : r1_times n_r1 G256 = (0, 0)) by (apply (r1_inf n_r1); [lia|apply Z.divide_refl]).
  pose proof (opposite_exponents G256 _ G_r1 OG _ (Rg (z * w)) (Rg (z * - w)) (Opp z)) as S1.
  pose proof (opposite_exponents (x, y) _ P O _ (Rg (r * w)) (Rg (r * - w)) (Opp r)) as S2.
  assert (AB : r1_add A B = (0, 0)).
  { unfold A, B. set (a := r1_times (z * w mod n_r1) G256) in *. set (b := r1_times (r * w mod n_r1) (x, y)) in *. set (a' := r1_times (z * - w mod n_r1) G256) in *. set (b' := r1_times (r * - w mod n_r1) (x, y)) in *.
    assert (Ha : point_of secp256r1 a) by apply r1_pt, G_r1. assert (Hb : point_of secp256r1 b) by apply r1_pt, P. assert (Ha' : point_of secp256r1 a') by apply r1_pt, G_r1. assert (Hb' : point_of secp256r1 b') by apply r1_pt, P.
    unfold r1_add in *. assert (Hab' : point_of secp256r1 (ec_add secp256r1 a' b')) by (apply (add_pt secp256r1 E_r1); assumption).
    rewrite (assoc secp256r1 E_r1 a b _ Ha Hb Hab'), (comm secp256r1 E_r1 a' b' Ha' Hb'). rewrite <- (assoc secp256r1 E_r1 b b' a' Hb Hb' Ha'), S2.
    rewrite (comm secp256r1 E_r1 (0, 0) a' (inf_pt secp256r1 E_r1) Ha'), (add_inf secp256r1). exact S1. }
  destruct (opposite_points A B (sum_pt _ _ _ P) (sum_pt _ _ _ P) AB) as (F & I). clearbody A B. rewrite <- F. destruct V as (VA & VF). split; [intros X; apply VA, I, X|exact VF].
Qed.
(** a signature (r, s) is accepted exactly if (r, n - s) is: every signature has a second form *)
Theorem C101_malleable : forall H wif w v u m sig sig' key, signed_bytes v u m -> List.length key = 64%nat ->
  List.length sig = 64%nat -> List.length sig' = 64%nat -> firstn 32 sig' = firstn 32 sig ->
  num_be (skipn 32 sig') = n_r1 - num_be (skipn 32 sig) ->
  fst (wVerifySignature (real_sigs H wif) v sig' (KBytes key) u w) = fst (wVerifySignature (real_sigs H wif) v sig (KBytes key) u w) /\ sig' <> sig.
Proof.
  intros H wif w v u m sg sg' key M Lk Ls Ls' F S. destruct (C101_accepts H wif w v u m sg key M Lk) as (b & E & B). destruct (C101_accepts H wif w v u m sg' key M Lk) as (b' & E' & B').
  rewrite E, E', F in *. cbn [fst]. split.
  - apply (f_equal Ok). set (x := num_be (firstn 32 key)) in *. set (y := num_be (skipn 32 key)) in *. rewrite S in B'. set (s := num_be (skipn 32 sg)) in *.
    assert (X : b = true <-> b' = true).
    { rewrite B, B'. split; intros (_ & A & V); (split; [assumption|]; split; [exact A|]); [apply valid_mirror; assumption|]. replace s with (n_r1 - (n_r1 - s)) by lia. apply valid_mirror; assumption. }
    destruct b, b'; try reflexivity; [apply X; reflexivity|symmetry; apply X; reflexivity].
  - intros ->. pose proof n_odd. pose proof (Z.div_mod n_r1 2 ltac:(lia)). lia.
Qed.
Print Assumptions C101_malleable.

(** the verification point, which the signature determines up to four choices, determines the
    digest modulo n *)
Lemma digest_of_point x y z z' r s w w' : acceptable_key x y -> 1 <= s < n_r1 -> cong n_r1 (w * s) 1 -> cong n_r1 (w' * s) 1 ->
  verification_point (x, y) z r w = verification_point (x, y) z' r w' -> cong n_r1 z z'.
Proof.
  intros (P & N & O & _) S W W' E. pose proof n_pos as NP. assert (NS : ~ cong n_r1 s 0). { intros X. apply cong_0, Z.divide_pos_le in X; lia. }
  assert (C : cong n_r1 w' w). { apply (cong_cancel n_r1 _ _ s prime_n); [rewrite <- cong_0; exact NS|]. rewrite W, W'. reflexivity. }
  unfold verification_point in E. assert (M : r * w' mod n_r1 = r * w mod n_r1) by (apply (cong_iff n_r1); [lia|]; rewrite C; reflexivity). rewrite M in E.
  apply (cancel secp256r1 E_r1) in E; [|apply r1_pt, G_r1|apply r1_pt, G_r1|apply r1_pt, P].
  pose proof (Z.mod_pos_bound (z * w) n_r1 ltac:(lia)). pose proof (Z.mod_pos_bound (z' * w') n_r1 ltac:(lia)). apply r1_order in E; [|lia|lia].
  assert (E2 : cong n_r1 (z * w mod n_r1) (z' * w' mod n_r1)) by exact E. rewrite !(cong_mod n_r1) in E2 by lia. rewrite C in E2.
  transitivity (z * w * s); [|rewrite E2].
  - transitivity (z * (w * s)); [rewrite W; apply cong_eq; ring|apply cong_eq; ring].
  - transitivity (z' * (w * s)); [apply cong_eq; ring|rewrite W; apply cong_eq; ring].
Qed.
Definition point_code (T : Z * Z) : bool * bool := (n_r1 <=? fst T, Z.even (snd T)).
Lemma code_inj T T' r : point_of secp256r1 T -> point_of secp256r1 T' -> T <> (0, 0) -> T' <> (0, 0) -> cong n_r1 (fst T) r -> cong n_r1 (fst T') r -> point_code T = point_code T' -> T = T'.
Proof.
  intros P P' N N' C C' E. assert (E1 : (n_r1 <=? fst T) = (n_r1 <=? fst T')) by (unfold point_code in E; congruence). assert (E2 : Z.even (snd T) = Z.even (snd T')) by (unfold point_code in E; congruence).
  apply by_parity; try assumption. assert (D : cong n_r1 (fst T) (fst T')) by (rewrite C, C'; reflexivity). destruct D as [q D]. destruct P as [[B _] _], P' as [[B' _] _]. pose proof n_pos.
  pose proof p_2n as P2. assert (q = 0) by nia. lia.
Qed.
Lemma codes_bound (l : list (bool * bool)) : NoDup l -> (List.length l <= 4)%nat /\ ((forall c, In c l -> fst c = false) -> (List.length l <= 2)%nat).
Proof.
  intros N. split; [|intros F].
  - apply (NoDup_incl_length N (l' := [(true, true); (true, false); (false, true); (false, false)])). intros [[] []] _; cbn; tauto.
  - apply (NoDup_incl_length N (l' := [(false, true); (false, false)])). intros [a b] I. assert (a = false) as -> by exact (F _ I). destruct b; cbn; tauto.
Qed.
Lemma choose x y r s : forall zs, Forall (fun z => ecdsa_valid (x, y) z r s) zs ->
  exists ws, List.length ws = List.length zs /\ Forall2 (fun z w => cong n_r1 (w * s) 1 /\ verification_point (x, y) z r w <> (0, 0) /\ cong n_r1 (fst (verification_point (x, y) z r w)) r) zs ws.
Proof.
  induction 1 as [|z zs (R & S & w & W & V & F) _ (ws & L & A)]; [exists []; auto|]. exists (w :: ws). split; [cbn [List.length]; lia|]. constructor; [|exact A]. split; [exact W|]. split; [exact V|exact F].
Qed.
Lemma binding_numbers x y r s zs : acceptable_key x y -> Forall (fun z => ecdsa_valid (x, y) z r s) zs -> NoDup (map (fun z => z mod n_r1) zs) ->
  (List.length zs <= 4)%nat /\ (c_p secp256r1 - n_r1 <= r -> (List.length zs <= 2)%nat).
Proof.
  intros A V D. destruct zs as [|z0 zs0]; [split; [|intros _]; cbn [List.length]; lia|]. assert (RS : 1 <= r < n_r1 /\ 1 <= s < n_r1) by (inversion V as [|? ? (R & S & _)]; auto). destruct RS as (R & S).
  set (zs := z0 :: zs0) in *. clearbody zs. destruct (choose x y r s zs V) as (ws & Lw & F). clear V.
  assert (K : exists l, List.length l = List.length zs /\ NoDup l /\ (c_p secp256r1 - n_r1 <= r -> forall c, In c l -> fst c = false) /\
    forall c, In c l -> exists z w, In z zs /\ cong n_r1 (w * s) 1 /\ verification_point (x, y) z r w <> (0, 0) /\ cong n_r1 (fst (verification_point (x, y) z r w)) r /\ c = point_code (verification_point (x, y) z r w)).
  { clear Lw. induction F as [|z w zs ws (W & N & C) F IH]; [exists []; split; [reflexivity|]; split; [constructor|]; split; [intros _|]; intros c []|].
    cbn [map] in D. apply NoDup_cons_iff in D. destruct D as (NI & D). destruct (IH D) as (l & L & ND & Sm & Of). pose proof A as (PQ & _).
    exists (point_code (verification_point (x, y) z r w) :: l). split; [cbn [List.length]; lia|]. split; [|split].
    - constructor; [|exact ND]. intros I. destruct (Of _ I) as (z' & w' & Iz & W' & N' & C' & Ec). apply NI. apply in_map_iff. exists z'. split; [|exact Iz].
      apply (cong_iff n_r1); [pose proof n_pos; lia|]. symmetry. apply (digest_of_point x y z z' r s w w' A S W W'). apply (code_inj _ _ r); try assumption; apply sum_pt; exact PQ.
    - intros G c [<-|I]; [|exact (Sm G c I)]. cbn [fst point_code]. pose proof (sum_pt (z * w mod n_r1) (r * w mod n_r1) (x, y) PQ) as [[B _] _]. fold (verification_point (x, y) z r w) in B. destruct C as [q C]. pose proof n_pos. pose proof p_2n as P2. assert (q = 0) by nia. lia.
    - intros c [<-|I]; [exists z, w; repeat split; try assumption; left; reflexivity|]. destruct (Of c I) as (z' & w' & Iz & Rest). exists z', w'. split; [right; exact Iz|exact Rest]. }
  destruct K as (l & L & ND & Sm & _). destruct (codes_bound l ND) as (B4 & B2). split; [lia|]. intros G. rewrite <- L. apply B2. exact (Sm G).
Qed.
(** One signature is accepted, under one key, for messages of at most four different digests
    modulo n; of at most two unless the number r is below p - n (about 2^128). *)
Theorem C101_binding : forall H wif w sig key ms, List.length key = 64%nat ->
  (forall m, In m ms -> wVerifySignature (real_sigs H wif) (VBytes m) sig (KBytes key) false w = (Ok true, w)) ->
  NoDup (map (fun m => num_be (sha256 H m) mod n_r1) ms) ->
  (List.length ms <= 4)%nat /\ (c_p secp256r1 - n_r1 <= num_be (firstn 32 sig) -> (List.length ms <= 2)%nat).
Proof.
  intros H wif w sg key ms Lk V D. destruct ms as [|m0 ms0]; [split; [|intros _]; cbn [List.length]; lia|]. set (ms := m0 :: ms0) in *.
  assert (A : forall m, In m ms -> acceptable_key (num_be (firstn 32 key)) (num_be (skipn 32 key)) /\
    ecdsa_valid (num_be (firstn 32 key), num_be (skipn 32 key)) (num_be (sha256 H m)) (num_be (firstn 32 sg)) (num_be (skipn 32 sg))).
  { intros m I. destruct (C101_accepts H wif w (VBytes m) false m sg key (sb_raw _ _ (bytes_b m)) Lk) as (b & E & B). rewrite (V m I) in E. assert (b = true) as -> by congruence. apply B. reflexivity. }
  pose proof (proj1 (A m0 (or_introl eq_refl))) as Acc.
  destruct (binding_numbers _ _ (num_be (firstn 32 sg)) (num_be (skipn 32 sg)) (map (fun m => num_be (sha256 H m)) ms) Acc) as (B4 & B2).
  - apply Forall_forall. intros z I. apply in_map_iff in I. destruct I as (m & <- & I). apply A, I.
  - rewrite map_map. exact D.
  - rewrite map_length in B4, B2. split; assumption.
Qed.
Print Assumptions C101_binding.
(** a key of the curve with a coordinate not below n is refused, whatever the signature: e.g. the
    point with x = n + 3 *)
Theorem C101_large_coordinate : forall H wif w v u m sig x y, signed_bytes v u m -> point_of secp256r1 (x, y) -> n_r1 <= x \/ n_r1 <= y ->
  wVerifySignature (real_sigs H wif) v sig (KPoint (x, y)) u w = (Ok false, w).
Proof.
  intros H wif w v u m sg x y M P B. destruct (r1_bounds _ P) as (X & Y). cbn [fst snd] in X, Y. destruct (C101_accepts_point H wif w v u m sg x y M X Y) as (b & E & I). rewrite E.
  destruct b; [|reflexivity]. exfalso. destruct (proj1 I eq_refl) as (_ & (_ & _ & _ & A) & _). lia.
Qed.
Print Assumptions C101_large_coordinate.

(** ** the hypotheses are met *)
#[local] Transparent n_r1.
Definition big_x : Z := n_r1 + 3.
Definition big_y : Z := 0x484f0c0fda434ef0a808458914f328715d7a545e198ac7eee31dffe861b5d23f.
Example C101_large_example : point_of secp256r1 (big_x, big_y) /\ n_r1 <= big_x.
Proof.
  split; [|discriminate]. split; [split; vm_compute; (split; [discriminate|reflexivity])|]. right.
  exists ((big_y * big_y - (big_x * big_x * big_x + c_a secp256r1 * big_x + c_b secp256r1)) / c_p secp256r1). vm_compute. reflexivity.
Qed.
Definition key2 : bytes := repeat x00 31 ++ [x02].
(** the private keys 1 and 2: the base point and its double *)
Example C99_example : rmap kp_PublicKey (new_KeyPair id_hashes (real_keys toy) (VBytes key1)) = Ok G256 /\
  rmap kp_PublicKey (new_KeyPair id_hashes (real_keys toy) (VBytearray key2)) =
    Ok (0x7cf27b188d034f7e8a52380304b51ac3c08969e277f21b35a60b48fc47669978, 0x07775510db8ed040293d9ac69f7430dbba7dade63ce982299e04b79d227873d1) /\
  new_KeyPair id_hashes (real_keys toy) (VBytes (repeat xff 32)) = Raise PlainException /\ hash_ok id_hashes /\ 0 < num_be key2 < n_r1.
Proof.
  repeat split; try (vm_compute; reflexivity); intros b; unfold id_hashes; cbn [sha256 ripemd160]; rewrite firstn_length, app_length, repeat_length; lia.
Qed.
(** a library of hash functions for which the nonce is 3: signing with the key 2 *)
Definition three : hashes := mkHashes (fun _ => repeat x00 31 ++ [x03]) (fun _ => repeat x00 20).
Definition no_wif : pyval -> res bytes := fun _ => Raise ValueError.
Definition p256_world : world := mkWorld setup_curve true.
Example C100_example : exists sig, wSign three (real_sigs three no_wif) (VBytes (bstr "aabbcc")) (VBytes key2) p256_world = (Ok sig, p256_world) /\
  0 < num_be (firstn 32 sig) < n_r1 /\ num_be (skipn 32 sig) <> 0 /\
  fst (wSign three (real_sigs three no_wif) (VBytes (bstr "aabbcc")) (VStr (hex key2)) p256_world) = Ok sig /\
  fst (wSign three (real_sigs three no_wif) (VBytes (bstr "aabbcc")) (VInt 2) p256_world) = Ok sig /\
  is_secp256r1 (w_curve p256_world) /\ signs_for (VBytes (bstr "aabbcc")) [xaa; xbb; xcc] /\ private_number (VBytes key2) 2 /\ hash_ok three.
Proof.
  set (sg := match fst (wSign three (real_sigs three no_wif) (VBytes (bstr "aabbcc")) (VBytes key2) p256_world) with Ok s => s | Raise _ => [] end).
  vm_compute in sg. exists sg. repeat (split; [vm_compute; (reflexivity || discriminate || (split; reflexivity))|]).
  split; [exact setup_is|]. split; [left; exists (bstr "aabbcc"); split; [constructor|reflexivity]|]. split; [exact (pn_bytes _ key2 (bytes_b key2) eq_refl)|]. split; reflexivity.
Qed.
(** this signature verifies under the key of the pair, and so does its second form *)
Example C101_example : exists kp sig, wKeyPair three (real_keys toy) (VBytes key2) p256_world = (Ok kp, p256_world) /\ List.length sig = 64%nat /\
  wVerifySignature (real_sigs three no_wif) (VStr (str "aabbcc")) sig (KPoint (kp_PublicKey kp)) true p256_world = (Ok true, p256_world).
Proof.
  destruct C100_example as (sg & Es & Rb & Sn & _ & _ & Cw & Sf & Pn & O).
  set (r := wKeyPair three (real_keys toy) (VBytes key2) p256_world). assert (Er : exists kp, r = (Ok kp, p256_world) /\ fst (kp_PublicKey kp) < n_r1 /\ snd (kp_PublicKey kp) < n_r1).
  { vm_compute in r. eexists. split; [reflexivity|]. split; reflexivity. }
  destruct Er as (kp & Er & Bx & By). exists kp.
  assert (Sb : signed_bytes (VStr (str "aabbcc")) true [xaa; xbb; xcc]) by (apply sb_hex_text; reflexivity).
  destruct (C100_sign_verify three toy no_wif p256_world p256_world key2 kp (VBytes key2) 2 (VBytes (bstr "aabbcc")) (VStr (str "aabbcc")) true _ O eq_refl Er ltac:(discriminate) Pn eq_refl Sf Sb) as (sg' & b & Es' & Ls & Ev & _ & I).
  assert (sg' = sg) as -> by congruence. exists sg. split; [exact Er|]. split; [exact Ls|]. rewrite Ev. cbv zeta in I. assert (b = true) as -> by (apply I; auto). reflexivity.
Qed.
