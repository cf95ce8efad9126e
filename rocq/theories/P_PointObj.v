(** * P_PointObj: property C98, points of several curve objects *)
From Coq Require Import String Lia ZifyBool ZifyNat Znumtheory.
From Verif Require Import M_Py M_Float M_UInt M_FloatRepr M_Fixed8Big M_ECCurve M_FieldObj S_IO S_Float S_Fixed8 S_FloatRepr S_EC.
From Verif Require Import L_Bytes L_Field L_EC L_EC2 P_Fixed8Big P_Field P_FieldObj P_EC.

(** the coordinates as numbers, and the curve a point belongs to *)
Definition nums (P : opoint) : Z * Z := (v_v (o_x P), v_v (o_y P)).
Definition curve_of (W : world) (P : opoint) : curve := mkCurve (w_p W (w_field W (o_c P))) (w_a W (o_c P)) (w_b W (o_c P)).
(** the coordinates are values of the field of the point's curve, as curve.point makes them *)
Definition made (W : world) (P : opoint) : Prop := v_f (o_x P) = w_field W (o_c P) /\ v_f (o_y P) = w_field W (o_c P).

Section ops.
Variable W : world.
Lemma add_val f a y n : f_integer y = Ok n -> the (v_add W (mkV f a) y) = Ok (mkV f (fadd (w_p W f) a n)).
Proof. intros E. unfold v_add. cbn [v_f]. rewrite (value_any f y n E). cbn [rbind]. unfold f_add. rewrite samefield_refl. reflexivity. Qed.
Lemma sub_val f a y n : f_integer y = Ok n -> the (v_sub W (mkV f a) y) = Ok (mkV f (fsub (w_p W f) a n)).
Proof. intros E. unfold v_sub. cbn [v_f]. rewrite (value_any f y n E). cbn [rbind]. unfold f_sub. rewrite samefield_refl. reflexivity. Qed.
Lemma mul_val f a y n : f_integer y = Ok n -> the (v_mul W (mkV f a) y) = Ok (mkV f (fmul (w_p W f) a n)).
Proof. intros E. unfold v_mul. cbn [v_f]. rewrite (value_any f y n E). cbn [rbind]. unfold f_mul. rewrite samefield_refl. reflexivity. Qed.
Lemma rmul_val f a y n : f_integer y = Ok n -> the (v_rmul W (mkV f a) y) = Ok (mkV f (fmul (w_p W f) n a)).
Proof. intros E. unfold v_rmul. cbn [v_f]. rewrite (value_any f y n E). cbn [rbind]. unfold f_mul. rewrite samefield_refl. reflexivity. Qed.
Lemma div_val f a y n : f_integer y = Ok n -> the (v_div W (mkV f a) y) = Ok (mkV f (fdiv (w_p W f) a n)).
Proof. intros E. unfold v_div. cbn [v_f]. rewrite (value_any f y n E). cbn [rbind]. unfold f_div. rewrite samefield_refl. reflexivity. Qed.
Lemma eq_val f a y n : f_integer y = Ok n -> v_eq W (mkV f a) y = Ok (feq (w_p W f) a n).
Proof. intros E. unfold v_eq. cbn [v_f]. rewrite (value_any f y n E). reflexivity. Qed.
Lemma pow_val f a e : 0 <= e -> v_pow false W (mkV f a) (OI e) = Ok (mkV f (fpow (w_p W f) a e)).
Proof. intros E. unfold v_pow, f_pow. cbn [v_f v_v f_integer rbind]. unfold py_pow3. replace (0 <=? e) with true by lia. reflexivity. Qed.
Lemma point_val c f a b : f = w_field W c -> c_point W c (mkV f a) (mkV f b) = Ok (mkP c (mkV f a) (mkV f b)).
Proof. intros ->. unfold c_point. rewrite (value_any _ (OV (mkV _ a)) a eq_refl), (value_any _ (OV (mkV _ b)) b eq_refl). reflexivity. Qed.

Lemma eq_point P Q : made W P -> o_eq W P Q = Ok (point_eq (curve_of W P) (nums P) (nums Q)).
Proof.
  destruct P as [c [f x] [f' y]]. intros [E1 E2]. cbn [o_c o_x o_y v_f] in E1, E2. subst f f'. unfold o_eq, point_eq, nums, curve_of. cbn [o_c o_x o_y v_v c_p fst snd].
  rewrite (eq_val _ x (OV (o_x Q)) (v_v (o_x Q)) eq_refl). cbn [rbind]. rewrite (eq_val _ y (OV (o_y Q)) (v_v (o_y Q)) eq_refl). destruct (feq _ x _); reflexivity.
Qed.
Lemma finish_val c f x y Q l : f = w_field W c -> c_finish W c (mkP c (mkV f x) (mkV f y)) Q (mkV f l) =
  let p := w_p W f in let x3 := fsub p (fpow p l 2) (fadd p x (v_v (o_x Q))) in
  Ok (mkP c (mkV f x3) (mkV f (fsub p (fmul p l (fsub p x x3)) y))).
Proof.
  intros Ef. unfold c_finish. rewrite pow_val by lia. cbn [rbind o_x o_y]. rewrite (add_val f x (OV (o_x Q)) (v_v (o_x Q)) eq_refl). cbn [rbind].
  rewrite (sub_val f _ (OV (mkV f _)) _ eq_refl). cbn [rbind v_v]. rewrite (sub_val f x (OV (mkV f _)) _ eq_refl). cbn [rbind v_v].
  rewrite (mul_val f l (OV (mkV f _)) _ eq_refl). cbn [rbind v_v]. rewrite (sub_val f _ (OV (mkV f y)) _ eq_refl). cbn [rbind v_v]. apply point_val, Ef.
Qed.
Lemma add_point P Q : made W P -> made W Q -> exists R, o_add W P Q = Ok R /\ made W R /\
  nums R = ec_add (curve_of W P) (nums P) (nums Q) /\ o_c R = (if iszero (nums P) then o_c Q else o_c P).
Proof.
  destruct P as [c [f x] [f' y]]. intros [E1 E2] MQ. cbn [o_c o_x o_y v_f] in E1, E2. subst f'. unfold o_add, c_add, ec_add.
  change (iszero (nums (mkP c (mkV f x) (mkV (w_field W c) y)))) with (o_iszero (mkP c (mkV f x) (mkV (w_field W c) y))). change (iszero (nums Q)) with (o_iszero Q). cbn [o_c].
  destruct (o_iszero (mkP c (mkV f x) (mkV (w_field W c) y))) eqn:ZP; [exists Q; split; [reflexivity|]; split; [exact MQ|]; split; reflexivity|].
  destruct (o_iszero Q) eqn:ZQ; [eexists; split; [reflexivity|]; split; [split; [exact E1|reflexivity]|]; split; reflexivity|].
  subst f. set (f := w_field W c). assert (Ef : f = w_field W c) by reflexivity.
  rewrite eq_point by (split; reflexivity). cbn [rbind]. set (cv := curve_of W _). set (p := c_p cv). assert (Pp : w_p W f = p) by reflexivity.
  assert (MZ : made W (c_zero W c)) by (split; reflexivity). assert (MR : forall a b, made W (mkP c (mkV f a) (mkV f b))) by (intros; split; reflexivity).
  change (fst (nums (mkP c (mkV f x) (mkV f y)))) with x. change (snd (nums (mkP c (mkV f x) (mkV f y)))) with y.
  change (fst (nums Q)) with (v_v (o_x Q)). change (snd (nums Q)) with (v_v (o_y Q)).
  destruct (point_eq cv _ _).
  - cbn [o_x o_y]. rewrite (eq_val f y (OI 0) 0 eq_refl). cbn [rbind]. rewrite Pp. destruct (feq p y 0); [exists (c_zero W c); split; [reflexivity|]; split; [exact MZ|]; split; reflexivity|].
    rewrite pow_val by lia. cbn [rbind]. rewrite (rmul_val f _ (OI 3) 3 eq_refl). cbn [rbind]. rewrite (add_val f _ (OV (c_a_value W c)) (w_a W c) eq_refl). cbn [rbind].
    rewrite (rmul_val f y (OI 2) 2 eq_refl). cbn [rbind]. rewrite (div_val f _ (OV (mkV f _)) _ eq_refl). cbn [rbind v_v]. rewrite finish_val by reflexivity. cbn zeta.
    eexists. split; [reflexivity|]. split; [apply MR|]. split; reflexivity.
  - cbn [o_x o_y]. rewrite (eq_val f x (OV (o_x Q)) (v_v (o_x Q)) eq_refl). cbn [rbind]. rewrite Pp. destruct (feq p x _); [exists (c_zero W c); split; [reflexivity|]; split; [exact MZ|]; split; reflexivity|].
    rewrite (sub_val f y (OV (o_y Q)) (v_v (o_y Q)) eq_refl). cbn [rbind]. rewrite (sub_val f x (OV (o_x Q)) (v_v (o_x Q)) eq_refl). cbn [rbind].
    rewrite (div_val f _ (OV (mkV f _)) _ eq_refl). cbn [rbind v_v]. rewrite finish_val by reflexivity. cbn zeta.
    eexists. split; [reflexivity|]. split; [apply MR|]. split; reflexivity.
Qed.
Lemma neg_point P : made W P -> exists R, o_neg W P = Ok R /\ made W R /\ nums R = ec_neg (curve_of W P) (nums P) /\ o_c R = o_c P.
Proof.
  destruct P as [c [f x] [f' y]]. intros [E1 E2]. cbn [o_c o_x o_y v_f] in E1, E2. subst f'. subst f. unfold o_neg, v_neg, f_neg. cbn [o_c o_x o_y v_f v_v].
  rewrite point_val by reflexivity. eexists. split; [reflexivity|]. split; [split; reflexivity|]. split; reflexivity.
Qed.
Lemma on_point P : made W P -> o_isoncurve W P = Ok (isoncurve (curve_of W P) (nums P)).
Proof.
  destruct P as [c [f x] [f' y]]. intros [E1 E2]. cbn [o_c o_x o_y v_f] in E1, E2. subst f f'. unfold o_isoncurve, c_isoncurve, isoncurve.
  change (iszero (nums _)) with (o_iszero (mkP c (mkV (w_field W c) x) (mkV (w_field W c) y))). cbn [o_c]. destruct (o_iszero _); [reflexivity|]. cbn [orb]. set (f := w_field W c). cbn [o_x o_y].
  rewrite !pow_val by lia. cbn [rbind]. unfold c_a_value. fold f. rewrite (mul_val f _ (OV (mkV f x)) x eq_refl). cbn [rbind]. rewrite (add_val f _ (OV (mkV f _)) _ eq_refl). cbn [rbind v_v].
  rewrite (add_val f _ (OV (c_b_value W c)) (w_b W c) eq_refl). cbn [rbind]. rewrite (eq_val f _ (OV (mkV f _)) _ eq_refl). reflexivity.
Qed.
Lemma lt_point P Q : made W Q -> o_lt W P Q = Ok (pt_lt (curve_of W Q) (nums P) (nums Q)).
Proof.
  intros M. unfold o_lt, pt_lt. rewrite (eq_point Q P M). cbn [rbind]. destruct (point_eq _ _ _); [reflexivity|]. cbn [nums fst snd].
  destruct (_ <? _); [reflexivity|]. destruct (_ >? _); [reflexivity|]. destruct (_ =? _); reflexivity.
Qed.
(** one family of curve objects: those with the parameters of [c] *)
Definition on_object (c : curve) (P : opoint) : Prop := made W P /\ curve_of W P = c.
Lemma curve_of_c P Q : o_c P = o_c Q -> curve_of W P = curve_of W Q.
Proof. unfold curve_of. intros ->. reflexivity. Qed.
Lemma add_family c P Q : on_object c P -> on_object c Q -> exists R, o_add W P Q = Ok R /\ on_object c R /\ nums R = ec_add c (nums P) (nums Q).
Proof.
  intros [MP CP] [MQ CQ]. destruct (add_point P Q MP MQ) as (R & E & M & N & C). exists R. split; [exact E|]. rewrite CP in N. split; [|exact N]. split; [exact M|].
  destruct (iszero (nums P)); rewrite (curve_of_c _ _ C); assumption.
Qed.
Lemma mul_family c fuel : forall acc sh s, on_object c acc -> on_object c sh ->
  exists R, o_mul_float fuel W acc sh s = Ok R /\ on_object c R /\ nums R = mul_loop_float fuel c (nums acc) (nums sh) s.
Proof.
  induction fuel as [|k IH]; intros acc sh s A B; cbn [o_mul_float mul_loop_float]; [exists acc; auto|].
  destruct (negb (ftruthy s)); [exists acc; auto|]. destruct (add_family c sh sh B B) as (S2 & E2 & B2 & N2). destruct (f_even s).
  - cbn [rbind]. rewrite E2. cbn [rbind]. rewrite <- N2. apply IH; assumption.
  - destruct (add_family c acc sh A B) as (A2 & Ea & Ba & Na). rewrite Ea. cbn [rbind]. rewrite E2. cbn [rbind]. rewrite <- N2, <- Na. apply IH; assumption.
Qed.
Lemma zero_family c P : on_object c P -> on_object c (c_zero W (o_c P)) /\ nums (c_zero W (o_c P)) = (0, 0).
Proof. intros [M C]. split; [|reflexivity]. split; [split; reflexivity|]. rewrite <- C. reflexivity. Qed.
Lemma mul_point c P y n : on_object c P -> f_integer y = Ok n -> n <> 0 ->
  match ec_mul c (nums P) (AInt n) with
  | Ok R' => exists R, o_mul W P y = Ok R /\ on_object c R /\ nums R = R'
  | Raise e => o_mul W P y = Raise e
  end.
Proof.
  intros A E N0. unfold ec_mul, o_mul. rewrite E. cbn [rbind integer]. replace (n =? 0) with false by lia. destruct (zero_family c P A) as [BZ NZ].
  destruct (add_family c P P A A) as (S2 & E2 & B2 & N2). destruct (add_family c _ P BZ A) as (A2 & Ea & Ba & Na). rewrite NZ in Na.
  destruct (n mod 2 =? 0); cbn [rbind]; rewrite ?Ea; cbn [rbind]; rewrite E2; cbn [rbind]; destruct (int_truediv n 2) as [s|]; cbn [rbind]; try reflexivity; rewrite <- N2.
  - change Infinity with (0, 0). rewrite <- NZ. apply mul_family; assumption.
  - change Infinity with (0, 0). rewrite <- Na. apply mul_family; assumption.
Qed.
Lemma mul_point_0 c P y : on_object c P -> f_integer y = Ok 0 -> exists R, o_mul W P y = Ok R /\ on_object c R /\ nums R = (0, 0).
Proof. intros A E. unfold o_mul. rewrite E. cbn [rbind Z.eqb]. destruct (zero_family c P A) as [BZ NZ]. eauto. Qed.
End ops.

(** ** C98 *)

(** [P] was made by some curve object with the equation y^2 = x^3 + a x + b modulo p *)
Definition point_of (W : world) (p a b : Z) (P : opoint) : Prop :=
  v_f (o_x P) = w_field W (o_c P) /\ v_f (o_y P) = w_field W (o_c P) /\
  w_p W (w_field W (o_c P)) = p /\ w_a W (o_c P) = a /\ w_b W (o_c P) = b.
Lemma point_of_iff W p a b P : point_of W p a b P <-> on_object W (mkCurve p a b) P.
Proof.
  unfold point_of, on_object, made, curve_of. split.
  - intros (A & B & <- & <- & <-). auto.
  - intros [[A B] E]. injection E as E1 E2 E3. auto.
Qed.

(** Points made by several curve objects with the same equation -- say, by several calls of
    ECDSA.secp256r1() -- add up like points of one object: the sum is the chord-and-tangent sum
    and again a point of one of these objects. *)
Theorem C98_sum : forall W p a b P Q, prime p -> 2 < p -> point_of W p a b P -> point_of W p a b Q ->
  is_point p a b (nums P) -> is_point p a b (nums Q) ->
  (exists R, o_add W P Q = Ok R /\ point_of W p a b R /\ is_point p a b (nums R) /\ sum p a (nums P) (nums Q) (nums R)) /\
  (exists N, o_neg W P = Ok N /\ point_of W p a b N /\ fst (nums N) = fst (nums P) /\ same p (snd (nums N)) (- snd (nums P))) /\
  o_isoncurve W P = Ok true /\
  (exists e, o_eq W P Q = Ok e /\ (e = true <-> nums P = nums Q)).
Proof.
  intros W p a b P Q Hp H2 AP AQ IP IQ. apply point_of_iff in AP, AQ. set (c := mkCurve p a b) in *.
  split; [|split; [|split]].
  - destruct (add_family W c P Q AP AQ) as (R & E & A & N). exists R. split; [exact E|]. split; [apply point_of_iff, A|]. rewrite N.
    destruct (C65_closed c (nums P) (nums Q) Hp H2 IP IQ) as (S & I & _). split; [exact I|exact S].
  - destruct AP as [M C]. destruct (neg_point W P M) as (R & E & M' & N & O). exists R. split; [exact E|]. split; [apply point_of_iff; split; [exact M'|rewrite (curve_of_c W _ _ O); exact C]|].
    rewrite N, C. split; [reflexivity|]. unfold ec_neg, fneg_. cbn [snd c c_p]. exists 1. ring.
  - destruct AP as [M C]. rewrite (on_point W P M), C. apply (f_equal Ok). apply isoncurve_iff; [cbn; lia|]. cbn [c c_p c_a c_b]. apply IP.
  - destruct AP as [M C]. rewrite (eq_point W P Q M), C. eexists. split; [reflexivity|]. rewrite point_eq_iff by (cbn; lia). cbn [c c_p]. split.
    + intros [X Y]. destruct IP as [[PX PY] _], IQ as [[QX QY] _]. rewrite (surjective_pairing (nums P)), (surjective_pairing (nums Q)). f_equal; eapply cong_small; eauto; apply same_cong; assumption.
    + intros ->. split; exists 0; ring.
Qed.
Print Assumptions C98_sum.
(** Which object a point came from makes no difference to any result: replacing points by equal
    points of other objects of the family leaves all numbers the same. *)
Theorem C98_interchangeable : forall W p a b P P' Q Q' y y' n, point_of W p a b P -> point_of W p a b P' -> point_of W p a b Q -> point_of W p a b Q' ->
  nums P = nums P' -> nums Q = nums Q' -> operand y n -> operand y' n ->
  rmap nums (o_add W P Q) = rmap nums (o_add W P' Q') /\ rmap nums (o_sub W P Q) = rmap nums (o_sub W P' Q') /\
  rmap nums (o_neg W P) = rmap nums (o_neg W P') /\ rmap nums (o_mul W P y) = rmap nums (o_mul W P' y') /\
  o_eq W P Q = o_eq W P' Q' /\ o_lt W P Q = o_lt W P' Q' /\ o_isoncurve W P = o_isoncurve W P' /\ o_str P = o_str P'.
Proof.
  intros W p a b P P' Q Q' y y' n AP AP' AQ AQ' EP EQ Y Y'. apply point_of_iff in AP, AP', AQ, AQ'. set (c := mkCurve p a b) in *.
  assert (Add : forall S S' T T', on_object W c S -> on_object W c S' -> on_object W c T -> on_object W c T' -> nums S = nums S' -> nums T = nums T' -> rmap nums (o_add W S T) = rmap nums (o_add W S' T')).
  { intros S S' T T' A B C D E F. destruct (add_family W c S T A C) as (R & ER & _ & NR). destruct (add_family W c S' T' B D) as (R' & ER' & _ & NR'). rewrite ER, ER'. cbn [rmap]. congruence. }
  assert (Neg : forall S, on_object W c S -> exists R, o_neg W S = Ok R /\ on_object W c R /\ nums R = ec_neg c (nums S)).
  { intros S [M C]. destruct (neg_point W S M) as (R & E & M' & N & O). exists R. split; [exact E|]. split; [split; [exact M'|rewrite (curve_of_c W _ _ O); exact C]|]. rewrite N, C. reflexivity. }
  split; [apply Add; assumption|]. split; [|split; [|split; [|split; [|split; [|split]]]]].
  - unfold o_sub. destruct (Neg Q AQ) as (R & ER & A & NR). destruct (Neg Q' AQ') as (R' & ER' & A' & NR'). rewrite ER, ER'. cbn [rbind]. apply Add; try assumption. congruence.
  - destruct (Neg P AP) as (R & ER & A & NR). destruct (Neg P' AP') as (R' & ER' & A' & NR'). rewrite ER, ER'. cbn [rmap]. congruence.
  - apply operand_iff in Y, Y'. destruct (Z.eq_dec n 0) as [->|N0].
    + destruct (mul_point_0 W c P y AP Y) as (R & ER & _ & NR). destruct (mul_point_0 W c P' y' AP' Y') as (R' & ER' & _ & NR'). rewrite ER, ER'. cbn [rmap]. congruence.
    + pose proof (mul_point W c P y n AP Y N0) as H. pose proof (mul_point W c P' y' n AP' Y' N0) as H'. rewrite <- EP in H'.
      destruct (ec_mul c (nums P) (AInt n)); [|congruence]. destruct H as (R & ER & _ & NR). destruct H' as (R' & ER' & _ & NR'). rewrite ER, ER'. cbn [rmap]. congruence.
  - destruct AP as [M C], AP' as [M' C']. rewrite (eq_point W P Q M), (eq_point W P' Q' M'). congruence.
  - destruct AQ as [M C], AQ' as [M' C']. rewrite (lt_point W P Q M), (lt_point W P' Q' M'). congruence.
  - destruct AP as [M C], AP' as [M' C']. rewrite (on_point W P M), (on_point W P' M'). congruence.
  - unfold o_str, v_str. unfold nums in EP. injection EP as -> ->. reflexivity.
Qed.
Print Assumptions C98_interchangeable.
(** Points of different curves are added and compared without complaint: the right operand's
    numbers are taken as coordinates on the left operand's curve. *)
Theorem C98_foreign : forall W P Q Q', v_f (o_x P) = w_field W (o_c P) -> v_f (o_y P) = w_field W (o_c P) ->
  v_f (o_x Q) = w_field W (o_c Q) -> v_f (o_y Q) = w_field W (o_c Q) ->
  o_c Q' = o_c P -> v_f (o_x Q') = w_field W (o_c P) -> v_f (o_y Q') = w_field W (o_c P) -> nums Q' = nums Q ->
  (exists R R', o_add W P Q = Ok R /\ o_add W P Q' = Ok R' /\ nums R = nums R' /\ (nums P <> (0, 0) -> o_c R = o_c P) /\ (nums P = (0, 0) -> R = Q)) /\
  o_eq W P Q = o_eq W P Q'.
Proof.
  intros W P Q Q' A1 A2 B1 B2 C0 C1 C2 E. assert (MP : made W P) by (split; assumption). assert (MQ : made W Q) by (split; assumption).
  assert (MQ' : made W Q') by (split; rewrite C0; assumption). split; [|rewrite !(eq_point W P) by exact MP; rewrite E; reflexivity].
  destruct (add_point W P Q MP MQ) as (R & ER & _ & NR & CR). destruct (add_point W P Q' MP MQ') as (R' & ER' & _ & NR' & CR'). exists R, R'.
  split; [exact ER|]. split; [exact ER'|]. split; [congruence|]. destruct (iszero (nums P)) eqn:Z.
  - apply iszero_iff in Z. split; [congruence|]. intros _. unfold o_add, c_add in ER. change (o_iszero P) with (iszero (nums P)) in ER. rewrite (proj2 (iszero_iff _) Z) in ER. congruence.
  - split; [auto|]. intros X. apply iszero_iff in X. congruence.
Qed.
Print Assumptions C98_foreign.
(** a difference likewise: the right operand is negated on its own curve, then added on the left
    operand's *)
Theorem C98_foreign_difference : forall W P Q, v_f (o_x P) = w_field W (o_c P) -> v_f (o_y P) = w_field W (o_c P) ->
  v_f (o_x Q) = w_field W (o_c Q) -> v_f (o_y Q) = w_field W (o_c Q) ->
  exists N R, o_neg W Q = Ok N /\ o_c N = o_c Q /\ nums N = (fst (nums Q), w_p W (w_field W (o_c Q)) - snd (nums Q)) /\
  o_add W P N = Ok R /\ o_sub W P Q = Ok R /\ (nums P <> (0, 0) -> o_c R = o_c P) /\ (nums P = (0, 0) -> R = N).
Proof.
  intros W P Q A1 A2 B1 B2. assert (MP : made W P) by (split; assumption). assert (MQ : made W Q) by (split; assumption).
  destruct (neg_point W Q MQ) as (N & EN & MN & NN & CN). destruct (add_point W P N MP MN) as (R & ER & _ & _ & CR). exists N, R.
  split; [exact EN|]. split; [exact CN|]. split; [rewrite NN; reflexivity|]. split; [exact ER|]. split; [unfold o_sub; rewrite EN; exact ER|].
  destruct (iszero (nums P)) eqn:Z.
  - apply iszero_iff in Z. split; [congruence|]. intros _. unfold o_add, c_add in ER. change (o_iszero P) with (iszero (nums P)) in ER. rewrite (proj2 (iszero_iff _) Z) in ER. congruence.
  - split; [auto|]. intros X. apply iszero_iff in X. congruence.
Qed.
Print Assumptions C98_foreign_difference.
(** adding points of two curves is not even commutative, and equality not symmetric *)
Definition two_curves : world :=
  mkWorld (fun f => match f with O => 17 | _ => 23 end) (fun c => c) (fun c => match c with O => 2 | _ => 1 end) (fun c => match c with O => 2 | _ => 1 end).
Theorem C98_foreign_not_commutative : exists P Q R R', point_of two_curves 17 2 2 P /\ point_of two_curves 23 1 1 Q /\
  is_point 17 2 2 (nums P) /\ is_point 23 1 1 (nums Q) /\
  o_add two_curves P Q = Ok R /\ o_add two_curves Q P = Ok R' /\ nums R <> nums R' /\ ~ is_point 17 2 2 (nums R) /\ ~ is_point 23 1 1 (nums R').
Proof.
  exists (mkP 0 (mkV 0 5) (mkV 0 1)), (mkP 1 (mkV 1 3) (mkV 1 10)). eexists. eexists.
  split; [repeat split|]. split; [repeat split|]. split; [split; [split; cbn; lia|right; cbn; exists (-8); reflexivity]|].
  split; [split; [split; cbn; lia|right; cbn; exists 3; reflexivity]|].
  split; [vm_compute; reflexivity|]. split; [vm_compute; reflexivity|].
  assert (D : forall p a b x y, 0 < p -> (x, y) <> (0, 0) -> (y * y - (x * x * x + a * x + b)) mod p <> 0 -> ~ is_point p a b (x, y)).
  { intros p a b x y P N M [_ [Z|E]]; [congruence|]. apply M. apply Z.mod_divide; [lia|]. exact E. }
  split; [discriminate|]. split; apply D; try lia; try discriminate.
Qed.
Print Assumptions C98_foreign_not_commutative.
(** the text of a point *)
Theorem C98_text : forall P Q, o_str P = str "(" ++ v_str (o_x P) ++ str "," ++ v_str (o_y P) ++ str ")" /\
  (o_str P = o_str Q <-> nums P = nums Q).
Proof.
  intros P Q. split; [reflexivity|]. split.
  - unfold o_str. intros E. apply app_inv_head in E. assert (C : forall v, ~ In 44 (v_str v)).
    { intros v. destruct (C97_text v) as (ds & -> & _ & F & _). rewrite !in_app_iff. intros [I|[I|I]].
      - cbn in I. lia.
      - unfold sign_text in I. destruct (v_v v <? 0); cbn in I; lia.
      - rewrite Forall_forall in F. apply F in I. unfold digit_code in I. lia. }
    assert (S : forall l l' r r' : pystr, ~ In 44 l -> ~ In 44 l' -> l ++ 44 :: r = l' ++ 44 :: r' -> l = l' /\ r = r').
    { induction l as [|x l IH]; intros [|x' l'] r r' N N' H; cbn in *.
      - split; congruence.
      - assert (x' = 44) as -> by congruence. tauto.
      - assert (x = 44) as -> by congruence. tauto.
      - destruct (IH l' r r') as [-> ->]; [tauto|tauto|congruence|]. split; congruence. }
    change (str "," ++ v_str (o_y P) ++ str ")") with (44 :: v_str (o_y P) ++ str ")") in E. change (str "," ++ v_str (o_y Q) ++ str ")") with (44 :: v_str (o_y Q) ++ str ")") in E.
    apply S in E; [|apply C|apply C]. destruct E as [E1 E2]. apply app_inv_tail in E2. apply C97_text_injective in E1. apply C97_text_injective in E2. unfold nums. congruence.
  - unfold o_str, nums. intros E. assert (v_v (o_x P) = v_v (o_x Q)) as E1 by congruence. assert (v_v (o_y P) = v_v (o_y Q)) as E2 by congruence.
    apply C97_text_injective in E1. apply C97_text_injective in E2. rewrite E1, E2. reflexivity.
Qed.
Print Assumptions C98_text.

(** two secp256r1() objects: 2G from one, G from the other *)
Definition two_r1 : world := mkWorld (fun _ => p256) (fun c => c) (fun _ => c_a secp256r1) (fun _ => c_b secp256r1).
Example C98_example : let G c := mkP c (mkV c (fst G256)) (mkV c (snd G256)) in
  point_of two_r1 p256 (c_a secp256r1) (c_b secp256r1) (G 0%nat) /\ point_of two_r1 p256 (c_a secp256r1) (c_b secp256r1) (G 1%nat) /\
  rmap nums (o_add two_r1 (G 0%nat) (G 1%nat)) = rmap nums (o_add two_r1 (G 1%nat) (G 1%nat)) /\
  rmap (fun R => fst (nums R)) (o_add two_r1 (G 0%nat) (G 1%nat)) = Ok 0x7cf27b188d034f7e8a52380304b51ac3c08969e277f21b35a60b48fc47669978 /\
  o_str (mkP 0 (mkV 0 5) (mkV 0 16)) = str "(0x5,0x16)".
Proof. cbn zeta. split; [repeat split|]. split; [repeat split|]. split; [vm_compute; reflexivity|]. split; vm_compute; reflexivity. Qed.
