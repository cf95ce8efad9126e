(** * L_FloatRepr2: the printed forms and what they read as *)
From Coq Require Import String Reals Lia Lra Floats.SpecFloat.
From Flocq Require Import Core BinarySingleNaN.
From Verif Require Import M_Py M_Float M_Fixed8 M_FloatRepr S_Float S_Fixed8 L_Bytes L_Float L_Fixed8 L_Fixed8b L_FloatIO L_FloatRepr.
Open Scope Z_scope.

(** ** str(n) *)
Lemma decimal_snoc l c : decimal_number (l ++ [c]) = 10 * decimal_number l + (c - 48).
Proof. rewrite decimal_number_app. reflexivity. Qed.
Lemma zlen_snoc {A} (l : list A) c : zlen (l ++ [c]) = zlen l + 1.
Proof. unfold zlen. rewrite app_length. cbn [length]. lia. Qed.
Lemma zlen_app' {A} (a b : list A) : zlen (a ++ b) = zlen a + zlen b.
Proof. unfold zlen. rewrite app_length. lia. Qed.
Lemma dec_text_aux_spec fuel : forall n, 0 < n < 2 ^ Z.of_nat (S fuel) -> let l := dec_text_aux fuel n in
  Forall digit_code l /\ decimal_number l = n /\ 10 ^ (zlen l - 1) <= n < 10 ^ zlen l /\ (exists c r, l = c :: r /\ c <> 48).
Proof.
  induction fuel as [|f IH]; intros n Hn l.
  - change (2 ^ Z.of_nat 1) with 2 in Hn. assert (n = 1) as -> by lia. unfold l. cbn. split; [constructor; [unfold digit_code; lia|constructor]|].
    repeat split; try lia. exists 49, []. split; [reflexivity|lia].
  - unfold l. cbn [dec_text_aux]. destruct (Z.ltb_spec n 10) as [H|H].
    + split; [constructor; [unfold digit_code; lia|constructor]|]. split; [change (10 * 0 + (48 + n - 48) = n); lia|]. split; [change (zlen [48 + n]) with 1; cbn; lia|].
      exists (48 + n), []. split; [reflexivity|lia].
    + assert (Hq : 0 < n / 10 < 2 ^ Z.of_nat (S f)).
      { split; [apply Z.div_str_pos; lia|]. apply Z.div_lt_upper_bound; [lia|]. rewrite (Nat2Z.inj_succ (S f)), Z.pow_succ_r in Hn by lia. lia. }
      destruct (IH _ Hq) as (F & V & [L1 L2] & c & r & E & C). pose proof (Z.div_mod n 10 ltac:(lia)). pose proof (Z.mod_pos_bound n 10 ltac:(lia)).
      set (l' := dec_text_aux f (n / 10)) in *. split; [apply Forall_app; split; [exact F|constructor; [unfold digit_code; lia|constructor]]|].
      split; [rewrite decimal_snoc, V; lia|]. split.
      * rewrite zlen_snoc. assert (0 < zlen l') by (rewrite E; unfold zlen; cbn [length]; lia).
        replace (zlen l' + 1 - 1) with (Z.succ (zlen l' - 1)) by lia. replace (zlen l' + 1) with (Z.succ (zlen l')) by lia. rewrite !Z.pow_succ_r by lia. lia.
      * exists c, (r ++ [48 + n mod 10]). rewrite E. split; [reflexivity|exact C].
Qed.
Lemma dec_text_spec n : 0 < n -> let l := dec_text n in
  Forall digit_code l /\ decimal_number l = n /\ 10 ^ (zlen l - 1) <= n < 10 ^ zlen l /\ (exists c r, l = c :: r /\ c <> 48).
Proof.
  intros H. apply dec_text_aux_spec. split; [lia|]. rewrite Nat2Z.inj_succ, Z2Nat.id by apply Z.log2_nonneg. apply Z.log2_spec. lia.
Qed.
Lemma decimal_zeros_r l n : 0 <= n -> decimal_number (l ++ zeros n) = decimal_number l * 10 ^ n.
Proof.
  intros H. unfold zeros. rewrite <- (Z2Nat.id n H) at 2. generalize (Z.to_nat n) as i. intros i. rewrite decimal_number_app. generalize (decimal_number l) as a.
  induction i as [|i IH]; intros a; [cbn [repeat fold_left Z.of_nat]; change (10 ^ 0) with 1; lia|].
  cbn [repeat fold_left]. rewrite IH. rewrite Nat2Z.inj_succ, Z.pow_succ_r by lia. replace (10 * a + (48 - 48)) with (10 * a) by lia. ring.
Qed.
Lemma decimal_zeros_l l n : decimal_number (zeros n ++ l) = decimal_number l.
Proof.
  unfold zeros. induction (Z.to_nat n) as [|i IH]; [reflexivity|]. exact IH.
Qed.
Lemma zlen_zeros n : 0 <= n -> zlen (zeros n) = n.
Proof. intros H. unfold zlen, zeros. rewrite repeat_length. lia. Qed.
Lemma digits_zeros n : Forall digit_code (zeros n).
Proof. unfold zeros. apply Forall_forall. intros y Hy. apply repeat_spec in Hy. subst. unfold digit_code. lia. Qed.

(** ** the plain form *)
Definition canon (ip fp : pystr) : Prop :=
  (ip = str "0" \/ hd 48 ip <> 48) /\ (fp = str "0" \/ last fp 48 <> 48).
Lemma Forall_firstn {A} (P : A -> Prop) n l : Forall P l -> Forall P (firstn n l).
Proof. intros H. rewrite <- (firstn_skipn n l) in H. apply Forall_app in H. apply H. Qed.
Lemma Forall_skipn {A} (P : A -> Prop) n l : Forall P l -> Forall P (skipn n l).
Proof. intros H. rewrite <- (firstn_skipn n l) in H. apply Forall_app in H. apply H. Qed.
Lemma last_app_ne {A} (a b : list A) x : b <> [] -> last (a ++ b) x = last b x.
Proof.
  intros H. induction a as [|c a IH]; [reflexivity|]. rewrite <- app_comm_cons. destruct (a ++ b) as [|c' r] eqn:E.
  - apply app_eq_nil in E. tauto.
  - change (last (c :: c' :: r) x) with (last (c' :: r) x). exact IH.
Qed.
(** the last digit is not 0 unless the number is a multiple of 10 *)
Lemma last_digit l : Forall digit_code l -> l <> [] -> decimal_number l mod 10 <> 0 -> last l 48 <> 48.
Proof.
  intros F N H E. destruct (exists_last N) as (l' & c & ->). rewrite last_last in E. subst c. apply H. rewrite decimal_snoc.
  replace (10 * decimal_number l' + (48 - 48)) with (decimal_number l' * 10) by lia. apply Z.mod_mul. lia.
Qed.
Lemma format_plain (neg : bool) d k : 0 < d -> (forall d', d = 10 * d' -> k >= 0) -> let p := zlen (dec_text d) + k in -4 < p <= 16 -> exists ip fp,
  (if neg then str "-" else []) ++ format_short d k = (if neg then str "-" else []) ++ ip ++ str "." ++ fp /\
  ip <> [] /\ fp <> [] /\ Forall digit_code ip /\ Forall digit_code fp /\ zlen fp = Z.max 1 (- k) /\
  decimal_number (ip ++ fp) * 10 ^ Z.max 0 (- k) = d * 10 ^ Z.max 0 k * 10 ^ zlen fp /\ canon ip fp.
Proof.
  intros Hd H10 p Hp. destruct (dec_text_spec d Hd) as (F & V & [L1 L2] & c & r & E & C). unfold format_short. fold p.
  set (ds := dec_text d) in *. assert (N1 : 0 < zlen ds) by (rewrite E; unfold zlen; cbn [length]; lia).
  replace (p <=? -4) with false by lia. replace (16 <? p) with false by lia. cbn [orb].
  assert (Nn : ds <> []) by (rewrite E; discriminate).
  destruct (Z.leb_spec p 0) as [H|H]; [|destruct (Z.leb_spec (zlen ds) p) as [H'|H']].
  - exists (str "0"), (zeros (- p) ++ ds). split; [reflexivity|]. split; [discriminate|]. split; [intros Q; apply app_eq_nil in Q; tauto|].
    split; [constructor; [unfold digit_code; cbn; lia|constructor]|]. split; [apply Forall_app; split; [apply digits_zeros|exact F]|].
    assert (LF : zlen (zeros (- p) ++ ds) = - k) by (rewrite zlen_app', zlen_zeros by lia; unfold p; lia). rewrite LF.
    split; [lia|]. split.
    + change (str "0" ++ zeros (- p) ++ ds) with (zeros 1 ++ zeros (- p) ++ ds). rewrite !decimal_zeros_l, V. rewrite (Z.max_r 0 (- k)), (Z.max_l 0 k) by lia. change (10 ^ 0) with 1. lia.
    + split; [left; reflexivity|]. right. rewrite last_app_ne by exact Nn. apply last_digit; [exact F|exact Nn|]. rewrite V. intros Q.
      apply Z.mod_divide in Q; [|lia]. destruct Q as [d' Q]. specialize (H10 d' ltac:(lia)). lia.
  - exists (ds ++ zeros (p - zlen ds)), (str "0"). split; [rewrite <- !app_assoc; reflexivity|]. split; [rewrite E; discriminate|]. split; [discriminate|].
    split; [apply Forall_app; split; [exact F|apply digits_zeros]|]. split; [constructor; [unfold digit_code; cbn; lia|constructor]|].
    assert (Hk : 0 <= k) by lia. replace (p - zlen ds) with k by (unfold p; lia). change (zlen (str "0")) with 1. split; [lia|]. split.
    + change (str "0") with (zeros 1). rewrite decimal_zeros_r by lia. rewrite decimal_zeros_r by lia. rewrite V. rewrite (Z.max_l 0 (- k)), (Z.max_r 0 k) by lia.
      change (10 ^ 0) with 1. ring.
    + split; [right; rewrite E; exact C|left; reflexivity].
  - exists (firstn (Z.to_nat p) ds), (skipn (Z.to_nat p) ds). split; [reflexivity|].
    assert (LF : zlen (skipn (Z.to_nat p) ds) = - k) by (unfold zlen in *; rewrite skipn_length; unfold p, zlen in *; lia). rewrite LF.
    assert (NE : skipn (Z.to_nat p) ds <> []) by (intros Q; rewrite Q in LF; change (zlen (@nil Z)) with 0 in LF; lia).
    assert (NI : firstn (Z.to_nat p) ds = c :: firstn (Z.to_nat p - 1) r). { rewrite E. destruct (Z.to_nat p) as [|i] eqn:Ei; [lia|]. cbn [firstn]. f_equal. f_equal. lia. }
    split; [rewrite NI; discriminate|]. split; [exact NE|]. split; [apply Forall_firstn, F|]. split; [apply Forall_skipn, F|]. split; [lia|]. split.
    + rewrite firstn_skipn, V. rewrite (Z.max_r 0 (- k)), (Z.max_l 0 k) by lia. change (10 ^ 0) with 1. lia.
    + split; [right; rewrite NI; exact C|]. right. rewrite <- (last_app_ne (firstn (Z.to_nat p) ds)) by exact NE. rewrite firstn_skipn. apply last_digit; [exact F|exact Nn|].
      rewrite V. intros Q. apply Z.mod_divide in Q; [|lia]. destruct Q as [d' Q]. specialize (H10 d' ltac:(lia)). lia.
Qed.

(** ** the exponent form *)
Lemma exp_text_parse x : x <> 0 -> exists sg ds, exp_text x = sg :: ds /\ (sg = 45 \/ sg = 43) /\ Forall digit_code ds /\ ds <> [] /\ 2 <= zlen ds /\
  cond_neg (sg =? 45) (decimal_number ds) = x.
Proof.
  intros Hx. destruct (dec_text_spec (Z.abs x) ltac:(lia)) as (F & V & [L1 L2] & c & r & E & C).
  exists (if x <? 0 then 45 else 43), ((if Z.abs x <? 10 then [48] else []) ++ dec_text (Z.abs x)). split; [reflexivity|].
  split; [destruct (x <? 0); auto|]. split; [apply Forall_app; split; [destruct (Z.abs x <? 10); repeat constructor; unfold digit_code; lia|exact F]|].
  split; [rewrite E; destruct (Z.abs x <? 10); discriminate|].
  assert (N1 : 0 < zlen (dec_text (Z.abs x))) by (rewrite E; unfold zlen; cbn [length]; lia). split.
  - rewrite zlen_app'. destruct (Z.ltb_spec (Z.abs x) 10); [change (zlen [48]) with 1; lia|]. change (zlen (@nil Z)) with 0.
    destruct (Z.eq_dec (zlen (dec_text (Z.abs x))) 1) as [Q|]; [|lia]. rewrite Q in L2. lia.
  - assert (VV : decimal_number ((if Z.abs x <? 10 then [48] else []) ++ dec_text (Z.abs x)) = Z.abs x).
    { destruct (Z.abs x <? 10); [change [48] with (zeros 1); rewrite decimal_zeros_l|]; exact V. }
    rewrite VV. destruct (Z.ltb_spec x 0); cbn; lia.
Qed.
Lemma sci_parse (neg : bool) c r sg ds : digit_code c -> Forall digit_code r -> sg = 45 \/ sg = 43 -> Forall digit_code ds -> ds <> [] ->
  let s := (if neg then str "-" else []) ++ [c] ++ match r with [] => [] | _ => str "." ++ r end ++ str "e" ++ sg :: ds in
  let e10 := cond_neg (sg =? 45) (decimal_number ds) - zlen r in
  float_of_text s = Some (float_of_fraction neg (decimal_number (c :: r) * 10 ^ Z.max 0 e10) (10 ^ Z.max 0 (- e10))).
Proof.
  intros Hc Hr Hsg Hds Nds s e10.
  assert (Fo : Forall ordinary s).
  { unfold s. apply Forall_app; split; [destruct neg; [constructor; [unfold ordinary, is_space; cbn; lia|constructor]|constructor]|].
    apply Forall_app; split; [constructor; [apply digit_ordinary, Hc|constructor]|]. apply Forall_app; split.
    - destruct r as [|c1 r]; [constructor|]. apply Forall_app. split; [constructor; [unfold ordinary, is_space; cbn; lia|constructor]|apply digits_ordinary, Hr].
    - constructor; [unfold ordinary, is_space; cbn; lia|]. constructor; [unfold ordinary, is_space; destruct Hsg as [-> | ->]; cbn; lia|apply digits_ordinary, Hds]. }
  unfold float_of_text. rewrite strip_ordinary by exact Fo. rewrite drop_underscores_ordinary by exact Fo.
  assert (PE : parse_exp (str "e" ++ sg :: ds) = Some (cond_neg (sg =? 45) (decimal_number ds))).
  { change (str "e" ++ sg :: ds) with (101 :: sg :: ds). cbn [parse_exp]. change ((101 =? 101) || (101 =? 69)) with true. cbv iota.
    assert (TS : take_sign (sg :: ds) = (sg =? 45, ds)) by (destruct Hsg as [-> | ->]; reflexivity). rewrite TS.
    rewrite <- (app_nil_r ds) at 1. rewrite take_digits_app by (assumption || exact I). destruct ds as [|d0 ds]; [congruence|]. reflexivity. }
  assert (PD : parse_decimal s = Some (neg, decimal_number (c :: r) * 10 ^ Z.max 0 e10, 10 ^ Z.max 0 (- e10))).
  { unfold s, parse_decimal. clear Fo s. change (str "e" ++ sg :: ds) with (101 :: sg :: ds) in *.
    set (rest := match r with [] => [] | _ => str "." ++ r end ++ 101 :: sg :: ds). change ([c] ++ rest) with (c :: rest).
    rewrite (take_sign_digits neg c) by exact Hc.
    assert (T1 : take_digits (c :: rest) = ([c], rest)).
    { change (c :: rest) with ([c] ++ rest). apply take_digits_app; [constructor; [exact Hc|constructor]|]. unfold rest. destruct r; cbn; unfold digit_code; lia. }
    rewrite T1. clear T1. unfold rest, e10. destruct r as [|c1 r].
    - change ([] ++ 101 :: sg :: ds) with (101 :: sg :: ds). cbv iota. change (101 =? 46) with false. cbv iota. change ([c] ++ []) with [c]. cbv iota. rewrite PE. reflexivity.
    - change ((str "." ++ c1 :: r) ++ 101 :: sg :: ds) with (46 :: ((c1 :: r) ++ 101 :: sg :: ds)). cbv iota. change (46 =? 46) with true. cbv iota.
      rewrite take_digits_app by (assumption || (cbn; unfold digit_code; lia)). change (([c] ++ c1 :: r)) with (c :: c1 :: r). cbv iota. rewrite PE. reflexivity. }
  rewrite PD. reflexivity.
Qed.

Lemma format_sci d k : 0 < d -> let p := zlen (dec_text d) + k in p <= -4 \/ 16 < p -> exists c r sg ds,
  format_short d k = [c] ++ match r with [] => [] | _ => str "." ++ r end ++ str "e" ++ sg :: ds /\
  dec_text d = c :: r /\ c <> 48 /\ digit_code c /\ Forall digit_code r /\ (sg = 45 \/ sg = 43) /\ Forall digit_code ds /\ 2 <= zlen ds /\
  exp_text (p - 1) = sg :: ds /\ cond_neg (sg =? 45) (decimal_number ds) = p - 1.
Proof.
  intros Hd p Hp. destruct (dec_text_spec d Hd) as (F & V & [L1 L2] & c & r & E & C).
  destruct (exp_text_parse (p - 1) ltac:(lia)) as (sg & xs & X1 & X2 & X3 & X4 & X5 & X6). exists c, r, sg, xs.
  rewrite E in F. inversion F as [|? ? Fc Fr]. subst. split; [|exact (conj E (conj C (conj Fc (conj Fr (conj X2 (conj X3 (conj X5 (conj X1 X6))))))))].
  unfold format_short. fold p. replace ((p <=? -4) || (16 <? p)) with true by lia. rewrite E, X1. reflexivity.
Qed.
Lemma plain_value ip fp d k : decimal_number (ip ++ fp) * 10 ^ Z.max 0 (- k) = d * 10 ^ Z.max 0 k * 10 ^ zlen fp ->
  (IZR (decimal_number (ip ++ fp)) / IZR (10 ^ zlen fp))%R = dval d k.
Proof.
  intros E. rewrite <- dval_fraction. pose proof (pow10_pos (Z.max 0 (- k)) ltac:(lia)) as P1. pose proof (pow10_pos (zlen fp) ltac:(apply zlen_nonneg)) as P2.
  apply (f_equal IZR) in E. rewrite (mult_IZR (decimal_number _)), (mult_IZR _ (10 ^ zlen fp)) in E. apply IZR_lt in P1, P2.
  apply Rmult_eq_reg_r with (IZR (10 ^ Z.max 0 (- k)) * IZR (10 ^ zlen fp))%R; [|nra].
  replace (IZR (decimal_number (ip ++ fp)) / IZR (10 ^ zlen fp) * (IZR (10 ^ Z.max 0 (- k)) * IZR (10 ^ zlen fp)))%R
    with (IZR (decimal_number (ip ++ fp)) * IZR (10 ^ Z.max 0 (- k)))%R by (field; lra). rewrite E. field. lra.
Qed.
(** ** reading back *)
Section ReadBack.
Variables (m : positive) (e : Z).
Hypothesis B : bounded 53 1024 m e = true.
Lemma shortest_no_ten : let '(d, k) := shortest m e in forall d', d = 10 * d' -> False.
Proof.
  pose proof (shortest_spec m e B) as H. destruct (shortest m e) as [d k]. destruct H as (H1 & H2 & H3 & _). intros d' ->.
  assert (k + 1 <= k); [|lia]. apply (H3 d' (k + 1)); [lia|]. rewrite <- dval_shift by lia. change (10 ^ 1) with 10. rewrite Z.mul_comm. exact H2.
Qed.
Lemma fraction_dval s n dd d k : 0 <= n -> 0 < dd -> (IZR n / IZR dd)%R = dval d k -> rnd64 (dval d k) = SF2R radix2 (S754_finite false m e) ->
  float_of_fraction s n dd = S754_finite s m e.
Proof. intros Hn Hd E R. apply fraction_finite; [exact Hn|exact Hd|exact B|]. rewrite E. exact R. Qed.
Lemma repr_reads s : float_of_text (float_repr (S754_finite s m e)) = Some (S754_finite s m e).
Proof.
  cbn [float_repr]. pose proof (shortest_spec m e B) as H. pose proof shortest_no_ten as T. destruct (shortest m e) as [d k]. destruct H as (H1 & H2 & _).
  set (p := zlen (dec_text d) + k). destruct (Z_lt_le_dec (-4) p) as [Hp|Hp]; [destruct (Z_le_gt_dec p 16) as [Hp'|Hp']|].
  - destruct (format_plain s d k H1 (fun d' Q => False_ind _ (T d' Q)) ltac:(fold p; lia)) as (ip & fp & E & Ni & Nf & Fi & Ff & Lf & V & _). rewrite E.
    rewrite (plain_text s ip fp) by (repeat split; auto). f_equal. apply (fraction_dval s _ _ d k).
    + apply decimal_number_nonneg, Forall_app. split; assumption.
    + apply pow10_pos, zlen_nonneg.
    + apply plain_value, V.
    + exact H2.
  - destruct (format_sci d k H1 ltac:(fold p; lia)) as (c & r & sg & ds & -> & E & C & Hc & Hr & Hsg & Hds & L2 & _ & V).
    rewrite sci_parse by (assumption || (intros ->; change (zlen (@nil Z)) with 0 in L2; lia)). f_equal. rewrite V.
    assert (KK : zlen (dec_text d) + k - 1 - zlen r = k) by (rewrite E; unfold zlen; cbn [length]; lia). rewrite KK. rewrite <- E, (proj1 (proj2 (dec_text_spec d H1))).
    apply (fraction_dval s _ _ d k); [pose proof (pow10_pos (Z.max 0 k) ltac:(lia)); nia|apply pow10_pos; lia|apply dval_fraction|exact H2].
  - destruct (format_sci d k H1 ltac:(fold p; lia)) as (c & r & sg & ds & -> & E & C & Hc & Hr & Hsg & Hds & L2 & _ & V).
    rewrite sci_parse by (assumption || (intros ->; change (zlen (@nil Z)) with 0 in L2; lia)). f_equal. rewrite V.
    assert (KK : zlen (dec_text d) + k - 1 - zlen r = k) by (rewrite E; unfold zlen; cbn [length]; lia). rewrite KK. rewrite <- E, (proj1 (proj2 (dec_text_spec d H1))).
    apply (fraction_dval s _ _ d k); [pose proof (pow10_pos (Z.max 0 k) ltac:(lia)); nia|apply pow10_pos; lia|apply dval_fraction|exact H2].
Qed.
End ReadBack.

Lemma float_repr_reads f : valid_binary 53 1024 f = true -> float_of_text (float_repr f) = Some f.
Proof.
  intros V. destruct f as [s|s| |s m e]; [destruct s; reflexivity|destruct s; reflexivity|reflexivity|]. apply repr_reads. exact V.
Qed.
