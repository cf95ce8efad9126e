(** * P_FloatRepr: printing amounts (C83) *)
From Coq Require Import String Reals Lia Lra Floats.SpecFloat.
From Flocq Require Import Core BinarySingleNaN.
From Verif Require Import M_Py M_Float M_Fixed8 M_FloatRepr S_Float S_Fixed8 S_FloatRepr L_Bytes L_Float L_Fixed8 L_Fixed8b L_FloatIO L_FloatRepr L_FloatRepr2 L_FloatRepr3.
Open Scope Z_scope.

Local Instance Hprec53r : FLX.Prec_gt_0 53 := eq_refl _.

(** ** the last two characters *)
Lemma ends2 (a : pystr) x y : skipn (length (a ++ [x; y]) - 2) (a ++ [x; y]) = [x; y] /\ firstn (length (a ++ [x; y]) - 2) (a ++ [x; y]) = a.
Proof.
  rewrite app_length. cbn [length]. replace (length a + 2 - 2)%nat with (length a) by lia.
  rewrite skipn_app, skipn_all, Nat.sub_diag, firstn_app, firstn_all, Nat.sub_diag. cbn [skipn firstn]. rewrite app_nil_r. split; reflexivity.
Qed.
Lemma split2 (l : pystr) : (2 <= length l)%nat -> exists a x y, l = a ++ [x; y].
Proof.
  intros H. destruct (@exists_last _ l) as (l1 & y & ->); [intros ->; cbn in H; lia|]. rewrite app_length in H. cbn in H.
  destruct (@exists_last _ l1) as (a & x & ->); [intros ->; cbn in H; lia|]. exists a, x, y. rewrite <- app_assoc. reflexivity.
Qed.
Definition json_of (s : pystr) : pystr := if pystr_eqb (skipn (length s - 2) s) (str ".0") then firstn (length s - 2) s else s.
Lemma json_keep t ds : Forall digit_code ds -> (2 <= length ds)%nat -> json_of (t ++ ds) = t ++ ds.
Proof.
  intros F H. destruct (split2 ds H) as (a & x & y & ->). unfold json_of. rewrite app_assoc. rewrite (proj1 (ends2 (t ++ a) x y)).
  apply Forall_app in F as [_ F]. inversion F as [|? ? Fx _]. unfold pystr_eqb. destruct (list_eq_dec _ _ _) as [E|]; [|reflexivity].
  exfalso. change (str ".0") with [46; 48] in E. assert (x = 46) by congruence. unfold digit_code in Fx. lia.
Qed.
Lemma json_plain t fp : Forall digit_code fp -> fp <> [] -> json_of (t ++ str "." ++ fp) = if pystr_eqb fp (str "0") then t else t ++ str "." ++ fp.
Proof.
  intros F N. destruct fp as [|c [|c' fp]]; [congruence| |].
  - change (t ++ str "." ++ [c]) with (t ++ [46; c]). unfold json_of. rewrite (proj1 (ends2 t 46 c)), (proj2 (ends2 t 46 c)).
    unfold pystr_eqb. destruct (list_eq_dec _ _ _) as [E|E], (list_eq_dec _ _ _) as [E'|E']; try reflexivity; exfalso; revert E E'; change (str ".0") with [46; 48]; change (str "0") with [48]; intros; congruence.
  - replace (pystr_eqb (c :: c' :: fp) (str "0")) with false by (unfold pystr_eqb; destruct (list_eq_dec _ _ _) as [E|]; [discriminate E|reflexivity]).
    rewrite app_assoc. apply json_keep; [exact F|cbn; lia].
Qed.
Lemma json_eq v s : ToString v = Ok s -> ToNeoJsonString v = Ok (json_of s).
Proof. intros H. unfold ToNeoJsonString. rewrite H. cbn [rbind]. unfold json_of. destruct (pystr_eqb _ _); reflexivity. Qed.

(** dropping ".0" does not change what is read *)
Lemma plain_without_zero neg ip : ip <> [] -> Forall digit_code ip -> float_of_text (sign_text neg ++ ip ++ str "." ++ str "0") = float_of_text (sign_text neg ++ ip).
Proof.
  intros N F. assert (P : 0 <= decimal_number ip) by (apply decimal_number_nonneg, F).
  rewrite (plain_text neg ip (str "0")) by (split; [exact N|]; split; [exact F|]; split; [constructor; [unfold digit_code; cbn; lia|constructor]|]; left; reflexivity).
  rewrite (plain_text neg ip []) by (split; [exact N|]; split; [exact F|]; split; [constructor|]; right; split; reflexivity).
  rewrite app_nil_r. change (10 ^ zlen (str "0")) with 10. change (10 ^ zlen (@nil Z)) with 1. change (str "0") with (zeros 1). rewrite decimal_zeros_r by lia. change (10 ^ 1) with 10.
  f_equal. destruct (Z.eq_dec (decimal_number ip) 0) as [->|NZ]; [reflexivity|].
  assert (EQ : (IZR (decimal_number ip * 10) / IZR 10 = IZR (decimal_number ip) / IZR 1)%R) by (rewrite mult_IZR; field).
  pose proof (float_of_fraction_spec neg (decimal_number ip * 10) 10 ltac:(lia) ltac:(lia)) as [V1 H1].
  pose proof (float_of_fraction_spec neg (decimal_number ip) 1 ltac:(lia) ltac:(lia)) as [V2 H2]. rewrite EQ in H1.
  destruct H1 as [(A1 & A2 & A3 & A4)|[A1 A2]], H2 as [(B1 & B2 & B3 & B4)|[B1 B2]].
  - apply (SF_inj 53 1024 eq_refl eq_refl); congruence.
  - exfalso. unfold overflows in B1. lra.
  - exfalso. unfold overflows in A1. lra.
  - congruence.
Qed.
Lemma json_reads f : valid_binary 53 1024 f = true -> float_of_text (json_of (float_repr f)) = Some f.
Proof.
  intros V. rewrite <- (float_repr_reads f V). destruct f as [s|s| |s m e]; [destruct s; reflexivity|destruct s; reflexivity|reflexivity|]. cbn [valid_binary] in V.
  cbn [float_repr]. pose proof (shortest_spec m e V) as H. pose proof (shortest_no_ten m e V) as T. destruct (shortest m e) as [d k]. destruct H as (H1 & _).
  set (p := zlen (dec_text d) + k). destruct (Z_lt_le_dec (-4) p) as [Hp|Hp]; [destruct (Z_le_gt_dec p 16) as [Hp'|Hp']|].
  - destruct (format_plain s d k H1 (fun d' Q => False_ind _ (T d' Q)) ltac:(fold p; lia)) as (ip & fp & E & Ni & Nf & Fi & Ff & _). rewrite E.
    rewrite app_assoc. rewrite json_plain by assumption. destruct (pystr_eqb fp (str "0")) eqn:Q; [|reflexivity].
    unfold pystr_eqb in Q. destruct (list_eq_dec _ _ _) as [->|]; [|discriminate]. symmetry. rewrite <- app_assoc. apply (plain_without_zero s ip); assumption.
  - destruct (format_sci d k H1 ltac:(fold p; lia)) as (c & r & sg & ds & -> & _ & _ & _ & _ & _ & Hds & L2 & _).
    set (t := match r with [] => [] | _ => _ end). f_equal. change (str "e" ++ sg :: ds) with ([101; sg] ++ ds). rewrite !app_assoc. apply json_keep; [exact Hds|unfold zlen in L2; lia].
  - destruct (format_sci d k H1 ltac:(fold p; lia)) as (c & r & sg & ds & -> & _ & _ & _ & _ & _ & Hds & L2 & _).
    set (t := match r with [] => [] | _ => _ end). f_equal. change (str "e" ++ sg :: ds) with ([101; sg] ++ ds). rewrite !app_assoc. apply json_keep; [exact Hds|unfold zlen in L2; lia].
Qed.

(** * C83 *)
(** str(x) succeeds unless v / 10^8 is too large for a float; both texts read back, with float(),
    as the float nearest to v / 10^8. *)
Theorem C83_reads_back v : ~ overflows (IZR v / 100000000) -> exists s j f,
  ToString v = Ok s /\ ToNeoJsonString v = Ok j /\ float_is f (rnd64 (IZR v / 100000000)) /\
  float_of_text s = Some f /\ float_of_text j = Some f.
Proof.
  intros NO. destruct (int_truediv_spec v D ltac:(unfold D; lia)) as [(f & E & F & _)|[O _]]; [|exfalso; exact (NO O)].
  assert (S : ToString v = Ok (float_repr f)) by (unfold ToString; rewrite E; reflexivity).
  exists (float_repr f), (json_of (float_repr f)), f. split; [exact S|]. split; [apply json_eq, S|]. split; [exact F|].
  split; [apply float_repr_reads, F|apply json_reads, F].
Qed.
Print Assumptions C83_reads_back.
Theorem C83_too_large v : overflows (IZR v / 100000000) -> ToString v = Raise OverflowError /\ ToNeoJsonString v = Raise OverflowError.
Proof.
  intros O. destruct (int_truediv_spec v D ltac:(unfold D; lia)) as [(f & _ & _ & L)|[_ E]].
  - exfalso. unfold overflows in O. change (IZR D) with 100000000%R in L. lra.
  - unfold ToNeoJsonString, ToString. rewrite E. split; reflexivity.
Qed.
Print Assumptions C83_too_large.

Lemma repr_finite v : v <> 0 -> Z.abs v <= 2 ^ 53 -> exists m e, ToString v = Ok (sign_text (v <? 0) ++ let '(d, k) := shortest m e in format_short d k) /\
  bounded 53 1024 m e = true /\ rnd64 (IZR (Z.abs v) / 100000000) = SF2R radix2 (S754_finite false m e).
Proof.
  intros N H. destruct (truediv_D v N H) as (m & e & E & B & R). exists m, e. split; [|split; assumption]. unfold ToString. rewrite E. reflexivity.
Qed.

(** Every amount from 0.0001 up to 67108864 (2^26) prints as a plain decimal of exactly its value,
    with at most 8 digits after the point and no superfluous zeros. *)
Theorem C83_exact v : 10 ^ 4 <= Z.abs v <= 2 ^ 26 * 10 ^ 8 -> exists ip fp s,
  ToString v = Ok s /\ amount_text (v <? 0) ip fp s /\ zlen fp <= 8 /\ satoshi_of ip fp = Z.abs v.
Proof.
  intros Hv. destruct (repr_finite v ltac:(lia) ltac:(lia)) as (m & e & -> & B & R).
  pose proof (shortest_exact m e (Z.abs v) B ltac:(unfold D; lia) R) as X. destruct (shortest m e) as [d k]. destruct X as (H1 & K & V & T).
  destruct (dec_text_spec d H1) as (F & VD & [L1 L2] & c & r & E & C). set (n := zlen (dec_text d)) in *.
  assert (N1 : 0 < n) by (unfold n; rewrite E; unfold zlen; cbn [length]; lia).
  assert (P8 : 0 < 10 ^ (k + 8)) by (apply pow10_pos; lia).
  assert (HP : -4 < n + k <= 16).
  { split.
    - destruct (Z_lt_le_dec (-4) (n + k)) as [|Q]; [assumption|exfalso].
      assert (10 ^ n * 10 ^ (k + 8) <= 10 ^ 4) by (rewrite <- Z.pow_add_r by lia; apply Z.pow_le_mono_r; lia). nia.
    - destruct (Z_le_gt_dec (n + k) 16) as [|Q]; [assumption|exfalso].
      assert (10 ^ 24 <= 10 ^ (n - 1) * 10 ^ (k + 8)) by (rewrite <- Z.pow_add_r by lia; apply Z.pow_le_mono_r; lia).
      assert (10 ^ 24 <= Z.abs v) by nia. lia. }
  destruct (format_plain (v <? 0) d k H1 (fun d' Q => False_ind _ (T d' Q)) HP) as (ip & fp & FE & Ni & Nf & Fi & Ff & Lf & VV & CN).
  exists ip, fp. eexists. split; [reflexivity|]. split; [|split].
  - split; [exact FE|]. split; [exact Ni|]. split; [exact Nf|]. split; [exact Fi|]. split; [exact Ff|exact CN].
  - lia.
  - unfold satoshi_of. rewrite <- V. destruct (Z_le_gt_dec 0 k) as [Q|Q].
    + rewrite (Z.max_l 0 (- k)), (Z.max_r 0 k) in VV by lia. assert (zlen fp = 1) as LL by lia. rewrite LL in *. change (10 ^ 0) with 1 in VV. rewrite Z.mul_1_r in VV. rewrite VV.
      change (10 ^ 1) with 10. change (10 ^ (8 - 1)) with 10000000. rewrite Z.pow_add_r by lia. change (10 ^ 8) with 100000000. ring.
    + rewrite (Z.max_r 0 (- k)), (Z.max_l 0 k) in VV by lia. assert (zlen fp = - k) as LL by lia. rewrite LL in *. change (10 ^ 0) with 1 in VV.
      assert (0 < 10 ^ (- k)) by (apply pow10_pos; lia). replace (8 - - k) with (k + 8) by lia. f_equal. nia.
Qed.
Print Assumptions C83_exact.

(** Below 0.0001 the exponent form is printed, again with exactly the value. *)
Theorem C83_small v : 0 < Z.abs v < 10 ^ 4 -> exists c r p s,
  ToString v = Ok s /\ small_text (v <? 0) c r p s /\ zlen r + p <= 8 /\ decimal_number (c :: r) * 10 ^ (8 - p - zlen r) = Z.abs v /\ ToNeoJsonString v = Ok s.
Proof.
  intros Hv. destruct (repr_finite v ltac:(lia) ltac:(lia)) as (m & e & S & B & R).
  pose proof (shortest_exact m e (Z.abs v) B ltac:(unfold D; lia) R) as X. destruct (shortest m e) as [d k]. destruct X as (H1 & K & V & T).
  destruct (dec_text_spec d H1) as (F & VD & [L1 L2] & _). set (n := zlen (dec_text d)) in *.
  assert (N0 : 0 <= n) by apply zlen_nonneg.
  assert (P8 : 0 < 10 ^ (k + 8)) by (apply pow10_pos; lia).
  assert (N1 : 0 < n) by (destruct (Z.eq_dec n 0) as [Q|]; [rewrite Q in L2; cbn in L2; lia|lia]).
  assert (HP : n + k <= -4). { destruct (Z_le_gt_dec (n + k) (-4)) as [|Q]; [assumption|exfalso].
      assert (10 ^ 4 <= 10 ^ (n - 1) * 10 ^ (k + 8)) by (rewrite <- Z.pow_add_r by lia; apply Z.pow_le_mono_r; lia). nia. }
  destruct (format_sci d k H1 ltac:(fold n; lia)) as (c & r & sg & ds & FE & E & C & Hc & Hr & Hsg & Hds & Lds & XT & XV). fold n in XT, XV.
  assert (LR : zlen r = n - 1) by (unfold n; rewrite E; unfold zlen; cbn [length]; lia).
  assert (ET : exp_text (n + k - 1) = [45; 48; 48 + (1 - n - k)]).
  { assert (Q : n + k - 1 = -5 \/ n + k - 1 = -6 \/ n + k - 1 = -7 \/ n + k - 1 = -8) by lia. destruct Q as [Q|[Q|[Q|Q]]]; rewrite Q; replace (1 - n - k) with (- (n + k - 1)) by lia; rewrite Q; reflexivity. }
  exists c, r, (1 - n - k). eexists. split; [exact S|]. split; [|split; [|split]].
  - split; [|split; [lia|split; [exact Hc|split; [exact C|split; [exact Hr|]]]]].
    + rewrite FE. rewrite <- XT, ET. reflexivity.
    + destruct r as [|c1 r]; [left; reflexivity|right]. change (last (c1 :: r) 48) with (last (c :: c1 :: r) 48). rewrite <- E. apply last_digit; [exact F|rewrite E; discriminate|].
      rewrite VD. intros Q. apply Z.mod_divide in Q; [|lia]. destruct Q as [d' Q]. apply (T d'). lia.
  - lia.
  - rewrite <- E, VD, LR. rewrite <- V. f_equal. f_equal. lia.
  - rewrite (json_eq v _ S). f_equal. rewrite FE. set (t := match r with [] => [] | _ => _ end). change (str "e" ++ sg :: ds) with ([101; sg] ++ ds). rewrite !app_assoc.
    apply json_keep; [exact Hds|unfold zlen in Lds; lia].
Qed.
Print Assumptions C83_small.
Theorem C83_zero : ToString 0 = Ok (str "0.0") /\ ToNeoJsonString 0 = Ok (str "0").
Proof. split; reflexivity. Qed.
Print Assumptions C83_zero.

(** The JSON text of a whole amount is the integer without a point; otherwise it is ToString's. *)
Theorem C83_json_whole u : 0 < Z.abs u <= 2 ^ 26 -> exists ip, ToNeoJsonString (u * 10 ^ 8) = Ok (sign_text (u <? 0) ++ ip) /\
  Forall digit_code ip /\ hd 48 ip <> 48 /\ decimal_number ip = Z.abs u.
Proof.
  intros Hu. destruct (C83_exact (u * 10 ^ 8) ltac:(lia)) as (ip & fp & s & S & (-> & Ni & Nf & Fi & Ff & C1 & C2) & L & V). exists ip.
  replace (u * 10 ^ 8 <? 0) with (u <? 0) in S by lia. pose proof (zlen_nonneg fp) as Z0.
  assert (FZ : fp = str "0").
  { destruct C2 as [|C2]; [assumption|exfalso]. destruct (exists_last Nf) as (fp' & c & ->). rewrite last_last in C2.
    apply Forall_app in Ff as [_ Fc]. inversion Fc as [|? ? Hc _]. unfold digit_code in Hc. unfold satoshi_of in V. rewrite app_assoc, decimal_snoc in V.
    rewrite zlen_snoc in *. pose proof (zlen_nonneg fp') as Z1. assert (P : 10 ^ (8 - (zlen fp' + 1)) * 10 ^ (zlen fp') * 10 = 10 ^ 8).
    { rewrite <- Z.pow_add_r by lia. replace (8 - (zlen fp' + 1) + zlen fp') with 7 by lia. reflexivity. }
    set (q := 10 ^ (8 - (zlen fp' + 1))) in *. set (w := 10 ^ zlen fp') in *. assert (0 < q) by (apply pow10_pos; lia).
    replace (Z.abs (u * 10 ^ 8)) with (Z.abs u * (q * w * 10)) in V by (rewrite P; lia).
    assert (E : 10 * decimal_number (ip ++ fp') + (c - 48) = Z.abs u * w * 10) by nia. lia. }
  subst fp. split; [|split; [exact Fi|]].
  - rewrite (json_eq _ _ S). f_equal. rewrite app_assoc. rewrite json_plain by assumption. reflexivity.
  - assert (VI : decimal_number ip = Z.abs u).
    { unfold satoshi_of in V. change (str "0") with (zeros 1) in V. rewrite decimal_zeros_r in V by lia. change (zlen (zeros 1)) with 1 in V. change (10 ^ 1) with 10 in V. change (10 ^ (8 - 1)) with 10000000 in V. lia. }
    split; [|exact VI]. destruct C1 as [->|]; [|assumption]. exfalso. cbn in VI. lia.
Qed.
Print Assumptions C83_json_whole.
Theorem C83_json_other v : Z.abs v <= 2 ^ 26 * 10 ^ 8 -> v mod 10 ^ 8 <> 0 -> ToNeoJsonString v = ToString v.
Proof.
  intros Hv Hm. destruct (Z_lt_le_dec (Z.abs v) (10 ^ 4)) as [L|L].
  - destruct (Z.eq_dec v 0) as [->|]; [exfalso; apply Hm; reflexivity|]. destruct (C83_small v ltac:(lia)) as (c & r & p & s & S & _ & _ & _ & J). congruence.
  - destruct (C83_exact v ltac:(lia)) as (ip & fp & s & S & (-> & Ni & Nf & Fi & Ff & C1 & C2) & Lf & V). rewrite (json_eq _ _ S), S. f_equal.
    rewrite app_assoc. rewrite json_plain by assumption. unfold pystr_eqb. destruct (list_eq_dec _ _ _) as [->|]; [exfalso|reflexivity].
    unfold satoshi_of in V. change (str "0") with (zeros 1) in V. rewrite decimal_zeros_r in V by lia. change (zlen (zeros 1)) with 1 in V. change (10 ^ 1) with 10 in V. change (10 ^ (8 - 1)) with 10000000 in V.
    apply Hm. apply Z.mod_divide; [lia|]. apply Z.divide_abs_r. exists (decimal_number ip). lia.
Qed.
Print Assumptions C83_json_other.

(** No two amounts up to 2^26 print the same; 2^26 is the limit. *)
Lemma rnd_sign v w : rnd64 (IZR v / 100000000) = rnd64 (IZR w / 100000000) -> 0 < v -> Z.abs w <= 2 ^ 53 -> v <= 2 ^ 53 -> 0 < w.
Proof.
  intros E Hv Hw1 Hv1. destruct (Z_lt_le_dec 0 w) as [|L]; [assumption|exfalso].
  assert (A : (1 <= IZR v)%R) by (apply IZR_le; lia). assert (A' : (IZR w <= 0)%R) by (apply IZR_le; lia).
  pose proof (rel_err (IZR v / 100000000) ltac:(lra)) as Q. apply Rabs_bounds in Q. rewrite E in Q.
  assert (rnd64 (IZR w / 100000000) <= rnd64 0)%R by (apply rnd64_mono; lra).
  assert (Z0 : rnd64 0 = 0%R) by (unfold rnd64; apply round_0; auto with typeclass_instances). lra.
Qed.
Theorem C83_distinct v w : Z.abs v <= 2 ^ 26 * 10 ^ 8 -> Z.abs w <= 2 ^ 26 * 10 ^ 8 -> (ToString v = ToString w -> v = w) /\ (ToNeoJsonString v = ToNeoJsonString w -> v = w).
Proof.
  intros Hv Hw.
  assert (NO : forall u, Z.abs u <= 2 ^ 26 * 10 ^ 8 -> ~ overflows (IZR u / 100000000)).
  { intros u Hu. apply small_no_overflow. unfold Rdiv. rewrite Rabs_mult, <- abs_IZR, (Rabs_right (/ 100000000)) by lra.
    assert (IZR (Z.abs u) <= IZR (2 ^ 53))%R by (apply IZR_le; lia). assert (0 <= IZR (Z.abs u))%R by (apply IZR_le; lia). lra. }
  destruct (C83_reads_back v (NO v Hv)) as (s & j & f & S & J & (_ & _ & F) & R1 & R2).
  destruct (C83_reads_back w (NO w Hw)) as (s' & j' & f' & S' & J' & (_ & _ & F') & R1' & R2').
  assert (K : f = f' -> v = w).
  { intros ->. rewrite F in F'. clear - F' Hv Hw. destruct (Z.lt_trichotomy v 0) as [L|[->|L]].
    - assert (E : rnd64 (IZR (- v) / 100000000) = rnd64 (IZR (- w) / 100000000)).
      { rewrite !opp_IZR. replace (- IZR v / 100000000)%R with (- (IZR v / 100000000))%R by (unfold Rdiv; ring).
        replace (- IZR w / 100000000)%R with (- (IZR w / 100000000))%R by (unfold Rdiv; ring). rewrite !rnd64_opp. congruence. }
      pose proof (rnd_sign _ _ E ltac:(lia) ltac:(lia) ltac:(lia)). assert (- v = - w); [|lia]. apply same_float; [unfold D; lia|lia|exact E].
    - destruct (Z.lt_trichotomy w 0) as [L|[->|L]]; [exfalso|reflexivity|exfalso].
      + assert (E : rnd64 (IZR (- w) / 100000000) = rnd64 (IZR 0 / 100000000)).
        { rewrite opp_IZR. replace (- IZR w / 100000000)%R with (- (IZR w / 100000000))%R by (unfold Rdiv; ring). rewrite rnd64_opp, <- F', <- rnd64_opp. f_equal. unfold Rdiv; ring. }
        pose proof (rnd_sign _ _ E ltac:(lia) ltac:(lia) ltac:(lia)). lia.
      + pose proof (rnd_sign _ _ (eq_sym F') L ltac:(lia) ltac:(lia)). lia.
    - pose proof (rnd_sign _ _ F' ltac:(lia) ltac:(lia) ltac:(lia)). apply same_float; [unfold D; lia|lia|exact F']. }
  split; intros Q; apply K; congruence.
Qed.
Print Assumptions C83_distinct.
Theorem C83_limit : ToString (2 ^ 26 * 10 ^ 8 + 1) = Ok (str "67108864.00000001") /\ ToString (2 ^ 26 * 10 ^ 8 + 2) = Ok (str "67108864.00000001").
Proof. split; vm_compute; reflexivity. Qed.
Print Assumptions C83_limit.

(** Parsing the printed text gives the amount back, or one satoshi closer to zero. *)
Theorem C83_parse_back v : Z.abs v < 2 ^ 52 -> exists s j r, ToString v = Ok s /\ ToNeoJsonString v = Ok j /\
  TryParse (PText s) false = Ok (Some r) /\ TryParse (PText j) false = Ok (Some r) /\ at_most_one_short r v.
Proof.
  intros Hv. assert (NO : ~ overflows (IZR v / 100000000)).
  { apply small_no_overflow. unfold Rdiv. rewrite Rabs_mult, <- abs_IZR, (Rabs_right (/ 100000000)) by lra.
    assert (IZR (Z.abs v) <= IZR (2 ^ 53))%R by (apply IZR_le; lia). assert (0 <= IZR (Z.abs v))%R by (apply IZR_le; lia). lra. }
  destruct (C83_reads_back v NO) as (s & j & f & S & J & F & R1 & R2). destruct (nearest_times_D f v Hv F) as (r & E & A).
  exists s, j, r. split; [exact S|]. split; [exact J|]. rewrite !TryParse_text, R1, R2. cbn [andb]. rewrite E. cbn [rbind]. auto.
Qed.
Print Assumptions C83_parse_back.

(** Between 2^26 and 10^15 the text is still a plain decimal, and one with the fewest digits after
    the point that float() reads as the same number: any other decimal text doing so has at least
    as many, and with as many it is no closer to the float. *)
Theorem C83_shortest v : 2 ^ 26 * 10 ^ 8 < Z.abs v <= 10 ^ 23 -> exists ip fp s, ToString v = Ok s /\ amount_text (v <? 0) ip fp s /\
  forall ip' fp' t f x, plain_decimal (v <? 0) ip' fp' t -> float_of_text t = Some f -> float_of_text s = Some f -> float_is f x ->
    zlen fp <= Z.max 1 (zlen fp') /\
    (zlen fp' = zlen fp -> (Rabs (IZR (decimal_number (ip ++ fp)) / IZR (10 ^ zlen fp) - Rabs x) <= Rabs (IZR (decimal_number (ip' ++ fp')) / IZR (10 ^ zlen fp') - Rabs x))%R).
Proof.
  intros Hv.
  assert (Y1 : (67108864 <= IZR (Z.abs v) / 100000000 <= 1000000000000000)%R).
  { assert (IZR (2 ^ 26 * 10 ^ 8) <= IZR (Z.abs v) <= IZR (10 ^ 23))%R by (split; apply IZR_le; lia).
    change (2 ^ 26 * 10 ^ 8) with 6710886400000000 in H. change (10 ^ 23) with 100000000000000000000000 in H. lra. }
  set (y := (IZR (Z.abs v) / 100000000)%R) in *.
  assert (G1 : rnd64 67108864 = 67108864%R) by (apply (rnd64_int 67108864); lia).
  assert (G2 : rnd64 1000000000000000 = 1000000000000000%R) by (apply (rnd64_int 1000000000000000); lia).
  assert (Y2 : (67108864 <= rnd64 y <= 1000000000000000)%R) by (rewrite <- G1, <- G2; split; apply rnd64_mono; lra).
  assert (XY : (IZR v / 100000000)%R = ((if (v <? 0)%Z then -1 else 1) * y)%R).
  { unfold y. rewrite abs_IZR. destruct (Z.ltb_spec v 0) as [L|L]; [apply IZR_lt in L; rewrite Rabs_left by lra|apply IZR_le in L; rewrite Rabs_right by lra]; field. }
  assert (RX : rnd64 (IZR v / 100000000) = ((if (v <? 0)%Z then -1 else 1) * rnd64 y)%R).
  { rewrite XY. destruct (v <? 0); [|rewrite !Rmult_1_l; reflexivity]. replace (-1 * y)%R with (- y)%R by ring. rewrite rnd64_opp. ring. }
  destruct (int_truediv_spec v D ltac:(unfold D; lia)) as [(f0 & E & F0 & _)|[O _]].
  2:{ exfalso. unfold overflows in O. change (IZR D) with 100000000%R in O. rewrite RX in O. pose proof bpow_1024_big as BB. change (2 ^ 53) with 9007199254740992 in BB.
      rewrite Rabs_mult, (Rabs_right (rnd64 y)) in O by lra. destruct (v <? 0); [rewrite Rabs_left1 in O by lra|rewrite Rabs_right in O by lra]; lra. }
  change (IZR D) with 100000000%R in F0. rewrite RX in F0. destruct F0 as (Ff & Vf & Rf). destruct f0 as [s0|s0| |s0 m e]; try discriminate.
  { exfalso. cbn [SF2R] in Rf. destruct (v <? 0); lra. }
  cbn [valid_binary] in Vf.
  assert (PX : (0 < SF2R radix2 (S754_finite false m e))%R) by (rewrite SF2R_finite, Rmult_1_l; apply Rmult_lt_0_compat; [apply IZR_lt; lia|apply bpow_gt_0]).
  assert (SS : s0 = (v <? 0) /\ SF2R radix2 (S754_finite false m e) = rnd64 y).
  { destruct s0.
    - change true with (negb false) in Rf. rewrite SF2R_negb in Rf. destruct (v <? 0); [split; [reflexivity|lra]|exfalso; lra].
    - destruct (v <? 0); [exfalso; lra|split; [reflexivity|lra]]. }
  destruct SS as [-> SX]. assert (S : ToString v = Ok (float_repr (S754_finite (v <? 0) m e))) by (unfold ToString; rewrite E; reflexivity).
  pose proof (float_repr_reads (S754_finite (v <? 0) m e) Vf) as RD. revert S RD. cbn [float_repr].
  pose proof (shortest_spec m e Vf) as H. pose proof (shortest_no_ten m e Vf) as T. destruct (shortest m e) as [d k]. destruct H as (H1 & H2 & H3 & H4). intros S RD.
  destruct (dec_text_spec d H1) as (F & VD & [L1 L2] & _). set (n := zlen (dec_text d)) in *.
  assert (N0 : 0 <= n) by apply zlen_nonneg. assert (N1 : 0 < n) by (destruct (Z.eq_dec n 0) as [Q|]; [rewrite Q in L2; cbn in L2; lia|lia]).
  assert (HP : -4 < n + k <= 16).
  { apply IZR_le in L1. apply IZR_lt in L2. rewrite IZR_10 in L1, L2 by lia. pose proof (bpow_gt_0 radix10 k) as BK. split.
    - destruct (Z_lt_le_dec (-4) (n + k)) as [|Q]; [assumption|exfalso].
      assert (dval d k <= 1)%R. { unfold dval. apply Rle_trans with (bpow radix10 n * bpow radix10 k)%R; [apply Rmult_le_compat_r; lra|]. rewrite <- bpow_plus. apply (bpow_le radix10 (n + k) 0). lia. }
      assert (rnd64 (dval d k) <= rnd64 1)%R by (apply rnd64_mono; lra). assert (rnd64 1 = 1%R) by (apply (rnd64_int 1); lia). lra.
    - destruct (Z_le_gt_dec (n + k) 16) as [|Q]; [assumption|exfalso].
      assert (IZR (10 ^ 16) <= dval d k)%R. { unfold dval. rewrite IZR_10 by lia. apply Rle_trans with (bpow radix10 (n - 1) * bpow radix10 k)%R; [|apply Rmult_le_compat_r; lra]. rewrite <- bpow_plus. apply bpow_le. lia. }
      change (10 ^ 16) with 10000000000000000 in H. assert (G3 : rnd64 9007199254740992 = 9007199254740992%R) by (apply (rnd64_int 9007199254740992); lia).
      assert (rnd64 9007199254740992 <= rnd64 (dval d k))%R by (apply rnd64_mono; lra). lra. }
  destruct (format_plain (v <? 0) d k H1 (fun d' Q => False_ind _ (T d' Q)) HP) as (ip & fp & FE & Ni & Nf & Fi & Fd & Lf & VV & CN).
  exists ip, fp. eexists. split; [exact S|]. split; [split; [exact FE|]; split; [exact Ni|]; split; [exact Nf|]; split; [exact Fi|]; split; [exact Fd|exact CN]|].
  intros ip' fp' t f x PT Rt Rs Fx. assert (f = S754_finite (v <? 0) m e) as -> by congruence.
  pose proof (plain_text _ _ _ _ PT) as PV. rewrite Rt in PV. assert (P0 : 0 <= decimal_number (ip' ++ fp')) by (apply decimal_number_nonneg, Forall_app; split; apply PT).
  assert (P1 : 0 < 10 ^ zlen fp') by (apply pow10_pos, zlen_nonneg).
  assert (PV' : float_of_fraction (v <? 0) (decimal_number (ip' ++ fp')) (10 ^ zlen fp') = S754_finite (v <? 0) m e) by congruence.
  destruct (fraction_finite_inv _ _ _ _ _ _ P0 P1 PV') as (_ & _ & RR).
  assert (DV : (IZR (decimal_number (ip' ++ fp')) / IZR (10 ^ zlen fp'))%R = dval (decimal_number (ip' ++ fp')) (- zlen fp')).
  { rewrite <- dval_fraction. pose proof (zlen_nonneg fp'). rewrite (Z.max_l 0 (- zlen fp')), (Z.max_r 0 (- - zlen fp')) by lia. change (10 ^ 0) with 1. rewrite Z.mul_1_r. f_equal. f_equal. f_equal. f_equal. lia. }
  assert (XX : Rabs x = SF2R radix2 (S754_finite false m e)).
  { destruct Fx as (_ & _ & <-). destruct (v <? 0); [change true with (negb false); rewrite SF2R_negb, Rabs_Ropp|]; apply Rabs_right; lra. }
  rewrite DV in RR. pose proof (H3 _ _ P0 RR) as K3. split; [lia|]. intros LE. rewrite XX, DV, (plain_value ip fp d k VV).
  destruct (Z_lt_le_dec k 0) as [KN|KN].
  - assert (- zlen fp' = k) as KE by lia. rewrite KE in *. apply (H4 _ P0). exact RR.
  - (* k >= 0: one digit after the point; the printed whole number is the float itself *)
    assert (KE : zlen fp' = 1) by lia. rewrite KE in *. 
    assert (DX : dval d k = SF2R radix2 (S754_finite false m e)).
    { rewrite <- H2. symmetry. replace k with (0 + k) by lia. rewrite <- dval_shift by lia. unfold dval. change (bpow radix10 0) with 1%R. rewrite Rmult_1_r. apply rnd64_int.
      pose proof (pow10_pos k KN). destruct (Z_le_gt_dec (d * 10 ^ k) (2 ^ 53)) as [Q|Q]; [rewrite Z.abs_eq by nia; exact Q|exfalso].
      assert (Q2 : (9007199254740992 <= dval d k)%R).
      { replace k with (0 + k) by lia. rewrite <- dval_shift by lia. unfold dval. change (bpow radix10 0) with 1%R. rewrite Rmult_1_r. apply IZR_le. lia. }
      assert (G3 : rnd64 9007199254740992 = 9007199254740992%R) by (apply (rnd64_int 9007199254740992); lia).
      assert (rnd64 9007199254740992 <= rnd64 (dval d k))%R by (apply rnd64_mono; lra). lra. }
    rewrite DX. rewrite Rminus_diag_eq by reflexivity. rewrite Rabs_R0. apply Rabs_pos.
Qed.
Print Assumptions C83_shortest.

(** A whole amount of up to 10^15 units is printed as the integer: without a point in the JSON text,
    with ".0" by ToString. *)
Lemma whole_large u : 2 ^ 26 < Z.abs u <= 10 ^ 15 -> exists ip, ToString (u * 10 ^ 8) = Ok (sign_text (u <? 0) ++ ip ++ str "." ++ str "0") /\
  Forall digit_code ip /\ hd 48 ip <> 48 /\ decimal_number ip = Z.abs u.
Proof.
  intros Hu. assert (NE : (u * 10 ^ 8 <? 0) = (u <? 0)) by lia.
  assert (Q : (IZR (u * 10 ^ 8) / 100000000)%R = IZR u). { rewrite mult_IZR. change (10 ^ 8) with 100000000. field. }
  assert (RU : rnd64 (IZR u) = IZR u) by (apply rnd64_int; lia).
  destruct (C83_shortest (u * 10 ^ 8) ltac:(lia)) as (ip & fp & s & S & (Es & Ni & Nf & Fi & Ff & C1 & C2) & MIN).
  destruct (C83_reads_back (u * 10 ^ 8)) as (s' & j & f & S' & _ & F & RD & _).
  { rewrite Q. unfold overflows. rewrite RU. intros O. pose proof bpow_1024_big as BB. change (2 ^ 53) with 9007199254740992 in BB. rewrite <- abs_IZR in O.
    assert (IZR (Z.abs u) <= IZR (10 ^ 15))%R by (apply IZR_le; lia). change (10 ^ 15) with 1000000000000000 in H. lra. }
  assert (s' = s) as -> by congruence. rewrite Q, RU in F. rewrite NE in *.
  destruct (dec_text_spec (Z.abs u) ltac:(lia)) as (DF & DV & _ & c & r & DE & DC). set (d := dec_text (Z.abs u)) in *.
  assert (PT : plain_decimal (u <? 0) d (str "0") ((if u <? 0 then str "-" else []) ++ d ++ str "." ++ str "0")).
  { split; [rewrite DE; discriminate|]. split; [exact DF|]. split; [constructor; [unfold digit_code; cbn; lia|constructor]|]. left. reflexivity. }
  assert (VD : decimal_number (d ++ str "0") = 10 * Z.abs u). { change (str "0") with [48]. rewrite decimal_snoc, DV. lia. }
  assert (TF : float_of_text ((if u <? 0 then str "-" else []) ++ d ++ str "." ++ str "0") = Some f).
  { rewrite (plain_text _ _ _ _ PT), VD. apply (f_equal Some). change (zlen (str "0")) with 1. destruct F as (Ff0 & Vf & Rf).
    destruct f as [s0|s0| |s0 m e]; try discriminate. { exfalso. cbn [SF2R] in Rf. apply (eq_IZR 0) in Rf. lia. }
    assert (PX : (0 < SF2R radix2 (S754_finite false m e))%R) by (rewrite SF2R_finite, Rmult_1_l; apply Rmult_lt_0_compat; [apply IZR_lt; lia|apply bpow_gt_0]).
    assert (SS : s0 = (u <? 0) /\ SF2R radix2 (S754_finite false m e) = IZR (Z.abs u)).
    { destruct s0.
      - change true with (negb false) in Rf. rewrite SF2R_negb in Rf. destruct (Z.ltb_spec u 0) as [L|L]; [split; [reflexivity|]|exfalso; apply IZR_le in L; lra].
        rewrite Z.abs_neq, opp_IZR by lia. lra.
      - destruct (Z.ltb_spec u 0) as [L|L]; [exfalso; apply IZR_lt in L; lra|split; [reflexivity|]]. rewrite Z.abs_eq by lia. exact Rf. }
    destruct SS as [-> SX]. apply fraction_finite; [lia|reflexivity|exact Vf|]. rewrite SX.
    replace (IZR (10 * Z.abs u) / IZR (10 ^ 1))%R with (IZR (Z.abs u)). 2:{ rewrite mult_IZR. change (10 ^ 1) with 10. field. }
    apply rnd64_int. lia. }
  destruct (MIN _ _ _ _ _ PT TF RD F) as [M1 M2]. change (zlen (str "0")) with 1 in M1, M2. change (Z.max 1 1) with 1 in M1.
  assert (L1 : zlen fp = 1). { destruct fp; [contradiction|]. unfold zlen in M1 |- *. cbn [List.length] in M1 |- *. lia. }
  specialize (M2 (eq_sym L1)). rewrite L1, VD in M2. rewrite <- abs_IZR, mult_IZR in M2. change (10 ^ 1) with 10 in M2.
  assert (E0 : IZR (decimal_number (ip ++ fp)) = (10 * IZR (Z.abs u))%R).
  { replace (10 * IZR (Z.abs u) / 10 - IZR (Z.abs u))%R with 0%R in M2 by field. rewrite Rabs_R0 in M2. pose proof (Rabs_pos (IZR (decimal_number (ip ++ fp)) / 10 - IZR (Z.abs u))) as P.
    assert (K : Rabs (IZR (decimal_number (ip ++ fp)) / 10 - IZR (Z.abs u)) = 0%R) by lra.
    destruct (Req_dec (IZR (decimal_number (ip ++ fp)) / 10 - IZR (Z.abs u)) 0) as [E0|E0]; [lra|apply Rabs_no_R0 in E0; contradiction]. }
  rewrite <- mult_IZR in E0. apply eq_IZR in E0. destruct fp as [|x [|]]; [contradiction| |unfold zlen in L1; cbn [List.length] in L1; lia].
  rewrite decimal_snoc in E0. inversion Ff as [|? ? Hx _]. unfold digit_code in Hx. assert (x = 48) as -> by lia.
  exists ip. change (str "0") with [48]. rewrite S, Es. split; [reflexivity|]. split; [exact Fi|]. assert (VI : decimal_number ip = Z.abs u) by lia.
  split; [|exact VI]. destruct C1 as [->|]; [|assumption]. exfalso. cbn in VI. lia.
Qed.
Theorem C83_json_whole_large u : 2 ^ 26 < Z.abs u <= 10 ^ 15 -> exists ip, ToNeoJsonString (u * 10 ^ 8) = Ok (sign_text (u <? 0) ++ ip) /\
  ToString (u * 10 ^ 8) = Ok (sign_text (u <? 0) ++ ip ++ str ".0") /\ Forall digit_code ip /\ hd 48 ip <> 48 /\ decimal_number ip = Z.abs u.
Proof.
  intros Hu. destruct (whole_large u Hu) as (ip & S & F & N & V). exists ip. split; [|split; [|split; [exact F|split; [exact N|exact V]]]].
  - rewrite (json_eq _ _ S). apply (f_equal Ok). rewrite app_assoc. rewrite json_plain; [reflexivity|constructor; [unfold digit_code; cbn; lia|constructor]|discriminate].
  - rewrite S. reflexivity.
Qed.
Print Assumptions C83_json_whole_large.

(** concrete cases *)
Example C83_example : 
  ToString (-123456789012) = Ok (str "-1234.56789012") /\ ToString 9999 = Ok (str "9.999e-05") /\ ToString (-1) = Ok (str "-1e-08") /\
  ToNeoJsonString (-700000000) = Ok (str "-7") /\ ToNeoJsonString 750000000 = Ok (str "7.5") /\ ToString 10000 = Ok (str "0.0001") /\
  ToString 12345678901234567890123 = Ok (str "123456789012345.67") /\ ToString (10 ^ 24) = Ok (str "1e+16") /\ ToString (10 ^ 317) = Raise OverflowError.
Proof. repeat match goal with |- _ /\ _ => split end; vm_compute; reflexivity. Qed.
