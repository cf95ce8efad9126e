(** * P_FieldObj: properties C97 and C98

    [W]: the field and curve objects alive, any number of them. *)
From Coq Require Import String Lia ZifyBool ZifyNat Znumtheory Setoid.
From Verif Require Import M_Py M_Float M_UInt M_FloatRepr M_Fixed8Big M_ECCurve M_FieldObj S_IO S_Float S_Fixed8 S_FloatRepr S_EC.
From Verif Require Import L_Bytes L_Hex L_Fermat L_Field L_EC P_Fixed8Big P_Field.

(** ** C97 field values *)

Lemma value_any f y n : f_integer y = Ok n -> f_value f y = Ok (mkV f n).
Proof.
  destruct y as [z|[g v]|s]; cbn [f_integer f_value v_f v_v]; intros E.
  - assert (z = n) as -> by congruence. reflexivity.
  - assert (v = n) as -> by congruence. destruct (Nat.eqb_spec g f) as [->|]; reflexivity.
  - destruct (unhexlify (VStr s)) as [b|]; [|discriminate]. cbn [rbind] in *. assert (bytes2z BE b = n) as -> by congruence. reflexivity.
Qed.
Lemma value_fails f y e : f_integer y = Raise e -> f_value f y = Raise e.
Proof. destruct y as [z|v|s]; cbn [f_integer f_value]; intros E; [discriminate..|]. rewrite E. reflexivity. Qed.
Lemma samefield_refl f a b : samefield (mkV f a) (mkV f b) = true.
Proof. apply Nat.eqb_refl. Qed.
Lemma same_mod p a : 0 < p -> 0 <= a mod p < p /\ same p (a mod p) a.
Proof. intros P. split; [apply Z.mod_pos_bound, P|]. exists (- (a / p)). pose proof (Z.div_mod a p). lia. Qed.

(** The number an operand stands for: an int itself, a Value (of whatever field) its stored
    integer, a text the number its hexadecimal digits spell. *)
Inductive operand : oarg -> Z -> Prop :=
| op_int z : operand (OI z) z
| op_value f v : operand (OV (mkV f v)) v
| op_hex s b : hex_denotes s b -> operand (OH s) (num_be b).
Lemma operand_iff y n : f_integer y = Ok n <-> operand y n.
Proof.
  split.
  - destruct y as [z|[f v]|s]; cbn [f_integer v_v]; intros E; [assert (z = n) as -> by congruence; constructor|assert (v = n) as -> by congruence; constructor|].
    apply (C68_arguments (AHex s)) in E. inversion E; subst. constructor. assumption.
  - intros [z|f v|s b D]; [reflexivity|reflexivity|]. apply (C68_arguments (AHex s)). constructor. exact D.
Qed.

(** Every operator with an int, text or Value of any field on the other side gives a Value of the
    left (for the reflected ones: of its own) field, in 0..p-1 -- never the False of a field
    mismatch.  [p] is the modulus of that field. *)
Theorem C97_operators : forall W x y n, let p := w_p W (v_f x) in 0 < p -> operand y n ->
  (exists r, v_add W x y = Ok (FVal (mkV (v_f x) r)) /\ v_radd W x y = Ok (FVal (mkV (v_f x) r)) /\ 0 <= r < p /\ same p r (v_v x + n)) /\
  (exists r, v_sub W x y = Ok (FVal (mkV (v_f x) r)) /\ 0 <= r < p /\ same p r (v_v x - n)) /\
  (exists r, v_rsub W x y = Ok (FVal (mkV (v_f x) r)) /\ 0 <= r < p /\ same p r (n - v_v x)) /\
  (exists r, v_mul W x y = Ok (FVal (mkV (v_f x) r)) /\ v_rmul W x y = Ok (FVal (mkV (v_f x) r)) /\ 0 <= r < p /\ same p r (v_v x * n)) /\
  (exists r, v_div W x y = Ok (FVal (mkV (v_f x) r)) /\ 0 <= r < p /\ (0 < n -> Z.gcd n p = 1 -> same p (r * n) (v_v x))) /\
  (exists r, v_neg W x = mkV (v_f x) r /\ same p r (- v_v x)) /\
  (v_eq W x y = Ok true <-> same p (v_v x) n) /\ (v_eq W x y = Ok false <-> ~ same p (v_v x) n).
Proof.
  intros W [f a] y n p P O. cbn [v_f v_v] in *. apply operand_iff in O. pose proof (value_any f y n O) as V.
  unfold v_add, v_radd, v_sub, v_rsub, v_mul, v_rmul, v_div, v_neg, v_eq. cbn [v_f v_v]. rewrite V. cbn [rbind].
  unfold f_add, f_sub, f_mul, f_div, f_neg, f_eq. rewrite !samefield_refl. cbn [v_f v_v]. fold p.
  split; [|split; [|split; [|split; [|split; [|split]]]]].
  - exists ((a + n) mod p). split; [reflexivity|]. split; [rewrite (Z.add_comm n a); reflexivity|apply same_mod, P].
  - exists ((a - n) mod p). split; [reflexivity|apply same_mod, P].
  - exists ((n - a) mod p). split; [reflexivity|apply same_mod, P].
  - exists ((a * n) mod p). split; [reflexivity|]. split; [rewrite (Z.mul_comm n a); reflexivity|apply same_mod, P].
  - exists ((a * modinv n p) mod p). split; [reflexivity|]. split; [apply Z.mod_pos_bound, P|]. intros N G.
    destruct (C64_modinv n p N G) as [u U]. destruct (same_mod p (a * modinv n p) P) as [_ [w H]]. exists (w * n + a * u).
    assert ((a * modinv n p) mod p = a * modinv n p + w * p) as -> by lia.
    replace ((a * modinv n p + w * p) * n - a) with (a * (n * modinv n p) + w * n * p - a) by ring.
    assert (n * modinv n p = 1 + u * p) as -> by lia. ring.
  - exists (p - a). split; [reflexivity|]. exists 1. ring.
  - assert (K : (a - n) mod p = 0 <-> same p a n).
    { unfold same. rewrite Z.mod_divide by lia. reflexivity. }
    rewrite <- K. destruct (Z.eqb_spec ((a - n) mod p) 0) as [E|E]; repeat split; intros; congruence.
Qed.
Print Assumptions C97_operators.
(** the only way an operator raises is text that is not hexadecimal *)
Theorem C97_bad_operand : forall W x y, (forall n, ~ operand y n) -> exists e, is_ValueError e = true /\
  v_add W x y = Raise e /\ v_sub W x y = Raise e /\ v_mul W x y = Raise e /\ v_div W x y = Raise e /\
  v_radd W x y = Raise e /\ v_rsub W x y = Raise e /\ v_rmul W x y = Raise e /\ v_eq W x y = Raise e.
Proof.
  intros W x y N. assert (E : exists e, f_integer y = Raise e /\ is_ValueError e = true).
  { destruct y as [z|[f v]|s]; [destruct (N z); constructor|destruct (N v); constructor|].
    destruct (f_integer (OH s)) as [n|e] eqn:E; [destruct (N n); apply operand_iff, E|]. exists e. split; [reflexivity|]. cbn [f_integer] in E. unfold unhexlify in E.
    destruct (forallb _ s); [destruct (unhex_codes s); [discriminate|]|]; cbn [rbind] in E; match type of E with Raise ?z = _ => assert (e = z) as -> by congruence end; reflexivity. }
  destruct E as (e & E & V). exists e. split; [exact V|]. apply (value_fails (v_f x)) in E.
  unfold v_add, v_radd, v_sub, v_rsub, v_mul, v_rmul, v_div, v_eq. rewrite E. repeat split.
Qed.
Print Assumptions C97_bad_operand.
(** ** powers: the exponent is an ordinary number, not reduced by any field *)
Lemma modpow_same p a e : 0 < p -> 0 <= e -> same p (modpow a e p) (a ^ e) /\ 0 <= modpow a e p < p.
Proof.
  intros P E. destruct (Z.eq_dec p 1) as [->|]; [split; [exists (modpow a e 1 - a ^ e); ring|]|].
  - destruct e as [|q|q]; [cbn; lia| |lia]. cbn [modpow]. destruct q; cbn [powmod_pos]; apply Z.mod_pos_bound; lia.
  - destruct (C63_ring_ops p a 0 ltac:(lia)) as (_ & _ & _ & _ & H & _). apply H, E.
Qed.
Theorem C97_power : forall W new x y n, let p := w_p W (v_f x) in 0 < p -> operand y n ->
  (0 <= n -> exists r, v_pow new W x y = Ok (mkV (v_f x) r) /\ 0 <= r < p /\ same p r (v_v x ^ n)) /\
  (0 <= v_v x -> exists r, v_rpow new W x y = Ok (mkV (v_f x) r) /\ 0 <= r < p /\ same p r (n ^ v_v x)) /\
  (n < 0 -> new = true -> Z.gcd (v_v x) p = 1 -> exists r, v_pow new W x y = Ok (mkV (v_f x) r) /\ 0 <= r < p /\ same p (r * v_v x ^ (- n)) 1) /\
  (n < 0 -> new = false \/ Z.gcd (v_v x) p <> 1 -> v_pow new W x y = Raise ValueError).
Proof.
  intros W new [f a] y n p P O. cbn [v_f v_v] in *. apply operand_iff in O. unfold v_pow, v_rpow, f_pow. cbn [v_f v_v]. rewrite O, (value_any f y n O). cbn [rbind f_integer v_v].
  fold p. clearbody p. unfold py_pow3. split; [|split; [|split]].
  - intros N. replace (0 <=? n) with true by lia. cbn [rbind]. exists (modpow a n p). split; [reflexivity|]. destruct (modpow_same p a n P N). auto.
  - intros N. replace (0 <=? a) with true by lia. cbn [rbind]. exists (modpow n a p). split; [reflexivity|]. destruct (modpow_same p n a P N). auto.
  - intros N -> G. replace (0 <=? n) with false by lia. rewrite (proj2 (Z.eqb_eq _ _) G). cbn [andb rbind]. exists (modpow (modinv (a mod p) p) (- n) p). split; [reflexivity|].
    destruct (modpow_same p (modinv (a mod p) p) (- n) P ltac:(lia)) as [S R]. split; [exact R|].
    set (i := modinv (a mod p) p) in *. assert (I : same p (i * a) 1).
    { destruct (Z.eq_dec (a mod p) 0) as [Z0|Z0].
      - assert (P1 : p = 1) by (apply Z.mod_divide in Z0; [|lia]; apply Z.divide_gcd_iff in Z0; [|lia]; rewrite Z.gcd_comm in G; lia). exists (i * a - 1). rewrite P1. ring.
      - assert (Gm : Z.gcd (a mod p) p = 1) by (rewrite Z.gcd_mod, Z.gcd_comm by lia; exact G).
        pose proof (Z.mod_pos_bound a p P). destruct (C64_modinv (a mod p) p ltac:(lia) Gm) as [u U]. fold i in U. exists (u + i * (a / p)).
        pose proof (Z.div_mod a p ltac:(lia)) as D. rewrite D at 1. lia. }
    apply (proj1 (same_cong _ _ _)) in S. apply (proj1 (same_cong _ _ _)) in I. apply same_cong. rewrite S, <- Z.pow_mul_l, (cong_pow _ _ _ _ I). rewrite Z.pow_1_l by lia. reflexivity.
  - intros N H. replace (0 <=? n) with false by lia. destruct H as [-> | H]; [reflexivity|]. rewrite (proj2 (Z.eqb_neq _ _) H), Bool.andb_false_r. reflexivity.
Qed.
Print Assumptions C97_power.

(** ** the methods of the field, called directly *)

(** field.add(x, y) and its siblings answer False when the two values belong to different field
    objects, even with equal moduli; otherwise they give a value of the field called, reduced by
    its modulus, whatever field the operands come from. *)
Theorem C97_direct : forall W f x y, let p := w_p W f in 0 < p ->
  (v_f x <> v_f y -> f_add W f x y = FFalse /\ f_sub W f x y = FFalse /\ f_mul W f x y = FFalse /\ f_div W f x y = FFalse) /\
  (v_f x = v_f y ->
     (exists r, f_add W f x y = FVal (mkV f r) /\ 0 <= r < p /\ same p r (v_v x + v_v y)) /\
     (exists r, f_sub W f x y = FVal (mkV f r) /\ 0 <= r < p /\ same p r (v_v x - v_v y)) /\
     (exists r, f_mul W f x y = FVal (mkV f r) /\ 0 <= r < p /\ same p r (v_v x * v_v y))).
Proof.
  intros W f x y p P. unfold f_add, f_sub, f_mul, f_div, samefield. split; intros E.
  - rewrite (proj2 (Nat.eqb_neq _ _) E). repeat split.
  - rewrite (proj2 (Nat.eqb_eq _ _) E). fold p. split; [|split]; eexists; (split; [reflexivity|apply same_mod, P]).
Qed.
Print Assumptions C97_direct.

(** ** equality: an equivalence among the values of fields with one modulus, whichever objects,
    and whatever integers (not only 0..p-1) they store; across moduli not even symmetric *)
Theorem C97_equality : forall W x y z, let p := w_p W (v_f x) in 0 < p -> w_p W (v_f y) = p -> w_p W (v_f z) = p ->
  v_eq W x (OV x) = Ok true /\ v_eq W x (OV y) = v_eq W y (OV x) /\
  (v_eq W x (OV y) = Ok true -> v_eq W y (OV z) = Ok true -> v_eq W x (OV z) = Ok true) /\
  (0 <= v_v x < p -> 0 <= v_v y < p -> (v_eq W x (OV y) = Ok true <-> v_v x = v_v y)).
Proof.
  intros W x y z p P Py Pz. assert (O : forall v, operand (OV v) (v_v v)) by (intros [f v]; constructor).
  assert (E : forall a b, w_p W (v_f a) = p -> (v_eq W a (OV b) = Ok true <-> same p (v_v a) (v_v b)) /\ (v_eq W a (OV b) = Ok false <-> ~ same p (v_v a) (v_v b))).
  { intros a b Pa. pose proof (C97_operators W a (OV b) (v_v b) ltac:(rewrite Pa; exact P) (O b)) as H. cbn zeta in H. rewrite Pa in H. apply H. }
  assert (T : forall a b, exists r, v_eq W a (OV b) = Ok r).
  { intros a [g b]. unfold v_eq. rewrite (value_any (v_f a) (OV (mkV g b)) b eq_refl). cbn [rbind]. eauto. }
  split; [apply E; [reflexivity|]; exists 0; ring|]. split; [|split].
  - destruct (T x y) as [[|] H]; rewrite H; symmetry; apply E; try exact Py; apply E in H; try reflexivity.
    + destruct H as [k H]. exists (- k). lia.
    + intros [k H']. apply H. exists (- k). lia.
  - intros H1 H2. apply E in H1; [|reflexivity]. apply E in H2; [|exact Py]. apply E; [reflexivity|]. destruct H1 as [j H1], H2 as [k H2]. exists (j + k). lia.
  - intros X Y. rewrite (proj1 (E x y eq_refl)). split; [intros H; apply (cong_small p); [assumption..|apply same_cong, H]|intros ->; exists 0; ring].
Qed.
Print Assumptions C97_equality.
Theorem C97_equality_not_symmetric : exists W x y, w_p W (v_f x) = 5 /\ w_p W (v_f y) = 7 /\ 0 <= v_v x < 5 /\ 0 <= v_v y < 7 /\
  v_eq W x (OV y) = Ok true /\ v_eq W y (OV x) = Ok false.
Proof.
  exists (mkWorld (fun f => match f with O => 5 | _ => 7 end) (fun _ => O) (fun _ => 0) (fun _ => 0)), (mkV 0 0), (mkV 1 5).
  repeat split; try (cbn; lia).
Qed.
Print Assumptions C97_equality_not_symmetric.

(** iszero looks at the stored number, not at its residue: it is true of 0 only, implies == 0, and
    agrees with it for numbers in 0..p-1; the negative of zero is p, which == 0 and is not iszero *)
Theorem C97_iszero : forall W x, let p := w_p W (v_f x) in 0 < p ->
  (v_iszero x = true <-> v_v x = 0) /\ (v_iszero x = true -> v_eq W x (OI 0) = Ok true) /\
  (0 <= v_v x < p -> v_eq W x (OI 0) = Ok (v_iszero x)) /\
  (v_iszero x = true -> v_iszero (v_neg W x) = false /\ v_eq W (v_neg W x) (OI 0) = Ok true).
Proof.
  intros W x p P. assert (I0 : v_iszero x = true <-> v_v x = 0) by (unfold v_iszero; lia). pose proof (C97_operators W x (OI 0) 0 P (op_int 0)) as H. cbn zeta in H. fold p in H.
  destruct H as (_ & _ & _ & _ & _ & _ & T & F). split; [exact I0|]. split; [intros E; apply T; apply I0 in E; rewrite E; apply cong_refl|]. split.
  - intros B. destruct (v_iszero x) eqn:I; [apply T; rewrite (proj1 I0 eq_refl); apply cong_refl|]. apply F. intros [q S]. assert (X : v_v x <> 0) by (intros X; apply I0 in X; congruence). clearbody p. clear - B S X. assert (q = 0) by nia. lia.
  - intros E. apply I0 in E. unfold v_neg, f_neg, v_iszero. cbn [v_v]. rewrite E. fold p. split; [lia|].
    pose proof (C97_operators W (mkV (v_f x) (p - 0)) (OI 0) 0 P (op_int 0)) as H. cbn zeta in H. cbn [v_f v_v] in H. fold p in H. apply H. exists 1. ring.
Qed.
Print Assumptions C97_iszero.

(** ** text *)
(** str(value) is 0x and then decimal digits *)
Theorem C97_text : forall x, exists ds, v_str x = str "0x" ++ sign_text (v_v x <? 0) ++ ds /\ ds <> [] /\ Forall digit_code ds /\
  decimal_number ds = Z.abs (v_v x) /\ (ds = str "0" \/ hd 48 ds <> 48).
Proof. intros x. destruct (int_text_spec (v_v x)) as (ds & E & H). exists ds. unfold v_str. rewrite E. split; [reflexivity|exact H]. Qed.
Print Assumptions C97_text.
(** values are told apart by their texts *)
Lemma int_text_inj a b : int_text a = int_text b -> a = b.
Proof.
  intros E. destruct (int_text_spec a) as (ds & Ea & Na & Fa & Va & _). destruct (int_text_spec b) as (es & Eb & Nb & Fb & Vb & _). rewrite Ea, Eb in E. clear Ea Eb.
  assert (H : forall l, l <> [] -> Forall digit_code l -> hd 0 l <> 45) by (intros [|c l] N F; [congruence|]; inversion F as [|? ? C]; subst; cbn; unfold digit_code in C; lia).
  unfold sign_text in E. destruct (a <? 0) eqn:A, (b <? 0) eqn:B; cbn [app] in E.
  - apply (f_equal (@tl Z)) in E. cbn in E. subst es. lia.
  - exfalso. apply (H es Nb Fb). rewrite <- E. reflexivity.
  - exfalso. apply (H ds Na Fa). rewrite E. reflexivity.
  - subst es. lia.
Qed.
Theorem C97_text_injective : forall x y, v_str x = v_str y <-> v_v x = v_v y.
Proof. intros x y. unfold v_str. split; [intros E; apply app_inv_head in E; apply int_text_inj, E|intros ->; reflexivity]. Qed.
Print Assumptions C97_text_injective.
(** read as the hexadecimal number its prefix announces, the text gives the value only for 0..9
    (and 0..-9) *)
Definition hex_number (ds : pystr) : Z := fold_left (fun n c => 16 * n + (c - 48)) ds 0.
Lemma hex_dec ds : Forall digit_code ds -> forall a b, 0 <= a <= b -> a = 0 /\ b = 0 \/ a < b \/ (a = b /\ 0 < a /\ ds <> []) \/ (a = b /\ ds = []) ->
  let d := fold_left (fun n c => 10 * n + (c - 48)) ds a in let h := fold_left (fun n c => 16 * n + (c - 48)) ds b in
  d <= h /\ (h = d -> a = b /\ (a = 0 \/ ds = [])).
Proof.
  induction 1 as [|c ds D F IH]; intros a b AB C; cbn [fold_left]; [split; [lia|intros; split; [lia|right; reflexivity]]|]. unfold digit_code in D.
  destruct (IH (10 * a + (c - 48)) (16 * b + (c - 48)) ltac:(lia)) as [L E].
  - destruct (Z.eq_dec b 0) as [->|]; [|right; left; lia]. assert (a = 0) as -> by lia. destruct (Z.eq_dec c 48) as [->|]; [left; lia|]. right. right. destruct ds; [right|left]; repeat split; try lia; discriminate.
  - split; [exact L|]. intros H. destruct (E H) as [E1 _]. split; [lia|left; lia].
Qed.
Theorem C97_text_is_not_hexadecimal : forall x ds, v_str x = str "0x" ++ ds -> 10 <= v_v x -> v_v x < hex_number ds.
Proof.
  intros x ds E X. destruct (C97_text x) as (es & Ee & _ & F & V & Hd). rewrite Ee in E. apply app_inv_head in E. replace (v_v x <? 0) with false in E by lia. cbn [sign_text app] in E. subst es.
  rewrite Z.abs_eq in V by lia. rewrite <- V in *. clear Ee V x. unfold hex_number, decimal_number in *.
  destruct F as [|c l D F]; [cbn in X; lia|]. cbn [fold_left] in *. unfold digit_code in D.
  change (str "0") with [48] in Hd. destruct Hd as [Hd|Hd]; [assert (c = 48 /\ l = []) as [-> ->] by (split; congruence); cbn in X; lia|]. cbn [hd] in Hd.
  destruct (hex_dec l F (10 * 0 + (c - 48)) (16 * 0 + (c - 48)) ltac:(lia)) as [L E]; [right; right; destruct l; [right|left]; repeat split; try lia; discriminate|]. cbn zeta in *.
  destruct (Z.eq_dec (fold_left (fun n c => 16 * n + (c - 48)) l (16 * 0 + (c - 48))) (fold_left (fun n c => 10 * n + (c - 48)) l (10 * 0 + (c - 48)))) as [Q|Q]; [|lia].
  destruct (E Q) as [_ [E1|E1]]; [lia|]. subst l. cbn [fold_left] in X. lia.
Qed.
Print Assumptions C97_text_is_not_hexadecimal.
Example C97_example :
  let W := mkWorld (fun f => match f with O => 17 | 1%nat => 17 | _ => 19 end) (fun c => c) (fun _ => 0) (fun _ => 7) in
  v_add W (mkV 0 15) (OV (mkV 2 18)) = Ok (FVal (mkV 0 16)) /\ v_add W (mkV 2 18) (OV (mkV 0 15)) = Ok (FVal (mkV 2 14)) /\
  f_add W 0 (mkV 0 15) (mkV 1 15) = FFalse /\ v_add W (mkV 0 15) (OH (str "1f")) = Ok (FVal (mkV 0 12)) /\
  v_pow true W (mkV 0 3) (OI (-1)) = Ok (mkV 0 6) /\ v_pow false W (mkV 0 3) (OI (-1)) = Raise ValueError /\
  v_str (mkV 0 16) = str "0x16" /\ v_add W (mkV 0 1) (OH (str "xy")) = Raise BinasciiError.
Proof. repeat split; vm_compute; reflexivity. Qed.
