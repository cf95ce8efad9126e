(** * L_Parse: float_of_text is the grammar of S_Parse *)
From Coq Require Import String Reals Lia Lra ZifyBool ZifyNat.
From Flocq Require Import Core.
From Flocq Require Import BinarySingleNaN.
From Coq Require Import Floats.SpecFloat.
From Verif Require Import M_Py M_Float M_Fixed8 S_Float S_Fixed8 S_Parse L_Float L_Fixed8 L_Fixed8b L_Bytes.
Open Scope Z_scope.

(** ** blanks *)
Lemma blank_space c : is_space c = true <-> (c = 32 \/ 9 <= c <= 13).
Proof. unfold is_space. lia. Qed.
Lemma drop_spaces_inv s : exists b, s = b ++ drop_spaces s /\ blanks b.
Proof.
  induction s as [|c s (b & E & B)]; [exists []; split; [reflexivity|constructor]|]. cbn [drop_spaces]. destruct (is_space c) eqn:Q.
  - exists (c :: b). cbn [app]. rewrite <- E. split; [reflexivity|]. constructor; [apply blank_space, Q|exact B].
  - exists []. split; [reflexivity|constructor].
Qed.
Lemma strip_inv s : exists b1 b2, s = b1 ++ strip s ++ b2 /\ blanks b1 /\ blanks b2.
Proof.
  unfold strip. destruct (drop_spaces_inv s) as (b1 & E1 & B1). destruct (drop_spaces_inv (rev (drop_spaces s))) as (b2 & E2 & B2).
  exists b1, (rev b2). split; [|split; [exact B1|apply Forall_rev, B2]]. rewrite E1 at 1. f_equal.
  rewrite <- (rev_involutive (drop_spaces s)), E2 at 1. rewrite rev_app_distr. reflexivity.
Qed.
Lemma drop_spaces_blanks b s : blanks b -> drop_spaces (b ++ s) = drop_spaces s.
Proof. induction 1 as [|c b C _ IH]; [reflexivity|]. cbn [app drop_spaces]. apply blank_space in C. rewrite C. exact IH. Qed.
Definition solid (c : Z) : Prop := is_space c = false.
Lemma drop_spaces_solid s r : Forall solid s -> s <> [] -> drop_spaces (s ++ r) = s ++ r.
Proof. intros F N. destruct F as [|c s C F]; [congruence|]. cbn. rewrite C. reflexivity. Qed.
Lemma strip_blanks b1 t b2 : blanks b1 -> blanks b2 -> Forall solid t -> t <> [] -> strip (b1 ++ t ++ b2) = t.
Proof.
  intros B1 B2 F N. unfold strip. rewrite drop_spaces_blanks by exact B1. rewrite drop_spaces_solid by assumption.
  rewrite rev_app_distr, drop_spaces_blanks by (apply Forall_rev, B2). rewrite <- (app_nil_r (rev t)), drop_spaces_solid.
  - rewrite app_nil_r. apply rev_involutive.
  - apply Forall_rev, F.
  - intros Q. apply N. rewrite <- (rev_involutive t), Q. reflexivity.
Qed.

(** ** underscores *)
Lemma is_digit_code c : is_digit c = true <-> digit_code c.
Proof. unfold is_digit, digit_code. lia. Qed.
Definition not_under (r : pystr) : Prop := match r with c :: _ => c <> 95 | [] => True end.
Definition not_digit_head (r : pystr) : Prop := match r with c :: _ => ~ digit_code c | [] => True end.
Lemma drop_prev r p q : not_under r -> drop_underscores p r = drop_underscores q r.
Proof. destruct r as [|c r]; [reflexivity|]. cbn. intros N. replace (c =? 95) with false by lia. reflexivity. Qed.
Lemma digit_part_digits a ds : digit_part a ds -> Forall digit_code ds /\ ds <> [] /\ Forall solid a /\ a <> [] /\ match a with c :: _ => digit_code c | [] => False end.
Proof.
  assert (SD : forall c, digit_code c -> solid c) by (unfold digit_code, solid, is_space; lia).
  induction 1 as [c C|c s ds C _ (I1 & I2 & I3 & I4 & I5)|c s ds C _ (I1 & I2 & I3 & I4 & I5)].
  - split; [constructor; [exact C|constructor]|]. split; [discriminate|]. split; [constructor; [apply SD, C|constructor]|]. split; [discriminate|exact C].
  - split; [constructor; assumption|]. split; [discriminate|]. split; [constructor; [apply SD, C|exact I3]|]. split; [discriminate|exact C].
  - split; [constructor; assumption|]. split; [discriminate|]. split; [constructor; [apply SD, C|]; constructor; [reflexivity|exact I3]|]. split; [discriminate|exact C].
Qed.
(** [drops t t']: the underscores of [t] go and [t'] is left *)
Definition drops (t t' : pystr) : Prop := forall p r, not_under r -> drop_underscores p (t ++ r) = option_map (app t') (drop_underscores false r).
Lemma drops_nil : drops [] [].
Proof. intros p r N. cbn [app]. rewrite (drop_prev r p false N). destruct (drop_underscores false r); reflexivity. Qed.
Lemma drop_char p c r : c <> 95 -> drop_underscores p (c :: r) = option_map (cons c) (drop_underscores (is_digit c) r).
Proof. intros N. cbn [drop_underscores]. replace (c =? 95) with false by lia. reflexivity. Qed.
Lemma map_cons_app {A} (c : A) (x : list A) (o : option (list A)) : option_map (cons c) (option_map (app x) o) = option_map (app (c :: x)) o.
Proof. destruct o; reflexivity. Qed.
Lemma drops_digit_part a ds : digit_part a ds -> drops a ds.
Proof.
  induction 1 as [c C|c s ds C D IH|c s ds C D IH]; intros p r N; unfold digit_code in C.
  - change ([c] ++ r) with (c :: r). rewrite drop_char by lia. rewrite (drop_prev r (is_digit c) false N). reflexivity.
  - cbn [app]. rewrite drop_char by lia. rewrite IH by exact N. apply map_cons_app.
  - cbn [app]. rewrite drop_char by lia. destruct (digit_part_digits _ _ D) as (_ & _ & _ & _ & Hh). destruct s as [|d s]; [contradiction|].
    change (str "_" ++ d :: s) with (95 :: d :: s). cbn [app drop_underscores Z.eqb Pos.eqb]. fold (drop_underscores false).
    replace (is_digit c && is_digit d) with true by (unfold is_digit, digit_code in *; lia). change (d :: s ++ r) with ((d :: s) ++ r).
    match goal with |- option_map _ ?X = _ => change X with (drop_underscores false ((d :: s) ++ r)) end.
    rewrite IH by exact N. apply map_cons_app.
Qed.
Lemma drops_char c : c <> 95 -> drops [c] [c].
Proof. intros C p r N. change ([c] ++ r) with (c :: r). rewrite drop_char by exact C. rewrite (drop_prev r (is_digit c) false N). reflexivity. Qed.
Lemma map_app_app {A} (x y : list A) (o : option (list A)) : option_map (app x) (option_map (app y) o) = option_map (app (x ++ y)) o.
Proof. destruct o; cbn; [rewrite app_assoc|]; reflexivity. Qed.
Lemma drops_app t t' u u' : drops t t' -> drops u u' -> not_under u -> drops (t ++ u) (t' ++ u').
Proof.
  intros T U N p r R. rewrite <- app_assoc. rewrite T by (destruct u; [exact R|exact N]). rewrite U by exact R. apply map_app_app.
Qed.
Lemma drops_final t t' : drops t t' -> drop_underscores false t = Some t'.
Proof. intros T. rewrite <- (app_nil_r t). rewrite T by exact I. cbn. rewrite app_nil_r. reflexivity. Qed.
Lemma not_under_digit_part a ds : digit_part a ds -> not_under a.
Proof. intros D. destruct (digit_part_digits _ _ D) as (_ & _ & _ & _ & Hh). destruct a; [contradiction|]. cbn. unfold digit_code in Hh. lia. Qed.
Lemma drops_sign sg neg : sign_part sg neg -> drops sg sg.
Proof. destruct 1; [apply drops_nil|apply drops_char; discriminate|apply drops_char; discriminate]. Qed.

(** back from the text without underscores *)
Lemma inv_char t c u : drop_underscores false t = Some (c :: u) -> ~ digit_code c -> exists t', t = c :: t' /\ drop_underscores false t' = Some u.
Proof.
  destruct t as [|c0 t]; [discriminate|]. intros E N. destruct (Z.eq_dec c0 95) as [->|C0].
  - cbn in E. destruct t; discriminate.
  - rewrite drop_char in E by exact C0. destruct (drop_underscores (is_digit c0) t) as [u'|] eqn:Q; [|discriminate]. cbn in E.
    assert (c0 = c) as -> by congruence. assert (u' = u) as -> by congruence. exists t. split; [reflexivity|].
    destruct (is_digit c) eqn:Dg; [apply is_digit_code in Dg; contradiction|exact Q].
Qed.
Lemma inv_digits ds : ds <> [] -> forall t r, Forall digit_code ds -> not_digit_head r -> drop_underscores false t = Some (ds ++ r) ->
  exists a t', t = a ++ t' /\ digit_part a ds /\ drop_underscores false t' = Some r.
Proof.
  induction ds as [|c ds IH]; [congruence|]. intros _ t r F N E. inversion F as [|? ? C F']; subst. cbn [app] in E.
  destruct t as [|c0 t]; [discriminate|]. destruct (Z.eq_dec c0 95) as [->|C0]; [cbn in E; destruct t; discriminate|].
  rewrite drop_char in E by exact C0. destruct (drop_underscores (is_digit c0) t) as [u'|] eqn:Q; [|discriminate]. cbn in E.
  assert (c0 = c) as -> by congruence. assert (u' = ds ++ r) as -> by congruence. clear E. rewrite (proj2 (is_digit_code c) C) in Q.
  assert (S1 : not_under t /\ drop_underscores false t = Some (ds ++ r) \/ exists d t0, t = 95 :: d :: t0 /\ digit_code d /\ drop_underscores false (d :: t0) = Some (ds ++ r)).
  { destruct t as [|c1 t]; [left; split; [exact I|exact Q]|]. destruct (Z.eq_dec c1 95) as [->|C1].
    - right. destruct t as [|d t]; [discriminate|]. change (drop_underscores true (95 :: d :: t)) with (if is_digit d then drop_underscores false (d :: t) else None) in Q.
      destruct (is_digit d) eqn:Dd; [|discriminate]. exists d, t. split; [reflexivity|]. split; [apply is_digit_code, Dd|exact Q].
    - left. split; [exact C1|]. etransitivity; [|exact Q]. apply drop_prev. exact C1. }
  destruct ds as [|c2 ds].
  - destruct S1 as [[_ S1]|(d & t0 & -> & Dd & S1)].
    + exists [c], t. split; [reflexivity|]. split; [constructor; exact C|exact S1].
    + exfalso. unfold digit_code in Dd. rewrite drop_char in S1 by lia. destruct (drop_underscores (is_digit d) t0); [|discriminate]. cbn in S1.
      destruct r as [|x r]; [discriminate|]. apply N. assert (d = x) as <- by congruence. exact Dd.
  - destruct S1 as [[_ S1]|(d & t0 & -> & Dd & S1)]; destruct (IH ltac:(discriminate) _ r F' N S1) as (a & t' & Ea & D & R).
    + exists (c :: a), t'. rewrite Ea. split; [reflexivity|]. split; [apply dp_next; assumption|exact R].
    + exists (c :: str "_" ++ a), t'. rewrite Ea. split; [reflexivity|]. split; [apply dp_underscore; assumption|exact R].
Qed.
Lemma inv_word w : Forall (fun c => ~ digit_code c) w -> forall t, drop_underscores false t = Some w -> t = w.
Proof.
  induction 1 as [|c w C F IH]; intros t E.
  - destruct t as [|c t]; [reflexivity|]. exfalso. destruct (Z.eq_dec c 95) as [->|C0]; [cbn in E; destruct t; discriminate|]. rewrite drop_char in E by exact C0. destruct (drop_underscores (is_digit c) t); discriminate.
  - destruct (inv_char _ _ _ E C) as (t' & -> & E'). f_equal. apply IH, E'.
Qed.

(** ** the text without underscores *)
Inductive clean_exp : pystr -> Z -> Prop :=
| ce_none : clean_exp [] 0
| ce_some l sg neg ds : l = 101 \/ l = 69 -> sign_part sg neg -> Forall digit_code ds -> ds <> [] ->
    clean_exp (l :: sg ++ ds) ((if neg then -1 else 1) * decimal_number ds).
Definition point_ok (pt fp : pystr) : Prop := pt = [] /\ fp = [] \/ pt = str ".".
Definition clean_number (t : pystr) (neg : bool) (ip fp : pystr) (e : Z) : Prop :=
  exists sg pt ex, t = sg ++ ip ++ pt ++ fp ++ ex /\ sign_part sg neg /\ Forall digit_code ip /\ Forall digit_code fp /\ ip ++ fp <> [] /\ point_ok pt fp /\ clean_exp ex e.
Lemma take_sign_sign sg neg r : sign_part sg neg -> match r with c :: _ => c <> 45 /\ c <> 43 | [] => True end -> take_sign (sg ++ r) = (neg, r).
Proof.
  intros S1 R. destruct S1; [|reflexivity|reflexivity]. cbn [app]. destruct r as [|c r]; [reflexivity|]. cbn. replace (c =? 45) with false by lia. replace (c =? 43) with false by lia. reflexivity.
Qed.
Lemma take_sign_inv s neg r : take_sign s = (neg, r) -> exists sg, s = sg ++ r /\ sign_part sg neg.
Proof.
  destruct s as [|c s]; cbn; intros E.
  - assert (neg = false) as -> by congruence. assert (r = []) as -> by congruence. exists []. split; [reflexivity|constructor].
  - destruct (Z.eqb_spec c 45) as [->|C]; [|destruct (Z.eqb_spec c 43) as [->|C']].
    + assert (neg = true) as -> by congruence. assert (r = s) as -> by congruence. exists (str "-"). split; [reflexivity|constructor].
    + assert (neg = false) as -> by congruence. assert (r = s) as -> by congruence. exists (str "+"). split; [reflexivity|constructor].
    + assert (neg = false) as -> by congruence. assert (r = c :: s) as -> by congruence. exists []. split; [reflexivity|constructor].
Qed.
Lemma cond_neg_mul neg z : cond_neg neg z = (if neg then -1 else 1) * z.
Proof. destruct neg; cbn [cond_neg]; lia. Qed.
Lemma clean_exp_parse ex e : clean_exp ex e -> parse_exp ex = Some e.
Proof.
  destruct 1 as [|l sg neg ds L S1 F N]; [reflexivity|]. cbn [parse_exp]. replace ((l =? 101) || (l =? 69)) with true by lia.
  destruct ds as [|d ds]; [congruence|]. rewrite (take_sign_sign sg neg (d :: ds) S1) by (inversion F as [|? ? Q]; unfold digit_code in Q; lia).
  rewrite <- (app_nil_r (d :: ds)) at 1. rewrite take_digits_app by (assumption || exact I). rewrite cond_neg_mul. reflexivity.
Qed.
Lemma parse_exp_inv ex e : parse_exp ex = Some e -> clean_exp ex e.
Proof.
  destruct ex as [|l r]; cbn [parse_exp]; intros E; [assert (e = 0) as -> by congruence; constructor|].
  destruct ((l =? 101) || (l =? 69)) eqn:L; [|discriminate]. destruct (take_sign r) as [neg r1] eqn:T. destruct (take_digits r1) as [d r2] eqn:T2.
  destruct d as [|d0 d]; [discriminate|]. destruct r2; [|discriminate]. destruct (take_sign_inv _ _ _ T) as (sg & -> & S1). destruct (take_digits_split _ _ _ T2) as [-> F].
  assert (e = cond_neg neg (dec_value (d0 :: d))) as -> by congruence. rewrite cond_neg_mul, app_nil_r. apply ce_some; [lia|exact S1|exact F|discriminate].
Qed.
Lemma clean_exp_head ex e : clean_exp ex e -> match ex with c :: _ => c = 101 \/ c = 69 | [] => True end.
Proof. destruct 1; [exact I|assumption]. Qed.
Lemma clean_parse t neg ip fp e : clean_number t neg ip fp e ->
  parse_decimal t = Some (neg, decimal_number (ip ++ fp) * 10 ^ Z.max 0 (e - zlen fp), 10 ^ Z.max 0 (- (e - zlen fp))).
Proof.
  intros (sg & pt & ex & -> & S1 & Fi & Ff & N & P & X). pose proof (clean_exp_head _ _ X) as Xh. pose proof (clean_exp_parse _ _ X) as Xp. unfold parse_decimal.
  rewrite (take_sign_sign sg neg _ S1).
  2:{ destruct ip as [|c ip]; [|inversion Fi as [|? ? Q]; unfold digit_code in Q; cbn; lia]. destruct P as [[-> ->]| ->]; [cbn in N; congruence|cbn; lia]. }
  rewrite take_digits_app; [|exact Fi|destruct P as [[-> ->]| ->]; cbn; [destruct ex; [exact I|unfold digit_code; lia]|unfold digit_code; lia]].
  destruct P as [[-> ->]| ->]; cbn [app].
  - destruct (ip ++ []) as [|c l] eqn:El; [congruence|].
    destruct ex as [|x ex]; [|replace (x =? 46) with false by lia]. all: rewrite El, Xp; reflexivity.
  - change (str "." ++ fp ++ ex) with (46 :: fp ++ ex). change (46 =? 46) with true. cbv iota.
    rewrite take_digits_app; [|exact Ff|destruct ex; [exact I|unfold digit_code; lia]]. change (46 =? 46) with true. cbv beta iota. destruct (ip ++ fp) as [|c l] eqn:El; [congruence|]. rewrite Xp. reflexivity.
Qed.
Lemma parse_clean t neg n d : parse_decimal t = Some (neg, n, d) -> exists ip fp e, clean_number t neg ip fp e.
Proof.
  unfold parse_decimal. destruct (take_sign t) as [neg' s1] eqn:T1. destruct (take_digits s1) as [ip s2] eqn:T2.
  destruct (take_sign_inv _ _ _ T1) as (sg & -> & S1). destruct (take_digits_split _ _ _ T2) as [-> Fi].
  destruct (match s2 with [] => ([], []) | c :: r => if c =? 46 then take_digits r else ([], s2) end) as [fp s3] eqn:T3.
  assert (P : exists pt, s2 = pt ++ fp ++ s3 /\ Forall digit_code fp /\ point_ok pt fp).
  { destruct s2 as [|c r]; [assert (fp = []) as -> by congruence; assert (s3 = []) as -> by congruence; exists []; split; [reflexivity|]; split; [constructor|left; auto]|].
    destruct (Z.eqb_spec c 46) as [->|C].
    - destruct (take_digits_split _ _ _ T3) as [-> Ff]. exists (str "."). split; [reflexivity|]. split; [exact Ff|right; reflexivity].
    - assert (fp = []) as -> by congruence. assert (s3 = c :: r) as -> by congruence. exists []. split; [reflexivity|]. split; [constructor|left; auto]. }
  destruct P as (pt & -> & Ff & P). destruct (ip ++ fp) as [|c l] eqn:El; [discriminate|]. destruct (parse_exp s3) as [e|] eqn:X; [|discriminate].
  intros E. assert (neg' = neg) as -> by congruence. exists ip, fp, e, sg, pt, s3. split; [reflexivity|]. split; [exact S1|]. split; [exact Fi|]. split; [exact Ff|].
  split; [congruence|]. split; [exact P|apply parse_exp_inv, X].
Qed.

(** ** numbers *)
Lemma solid_list (l : list Z) : forallb (fun c => negb (is_space c)) l = true -> Forall solid l.
Proof. intros H. apply Forall_forall. intros c C. rewrite forallb_forall in H. specialize (H c C). unfold solid. destruct (is_space c); [discriminate|reflexivity]. Qed.
Lemma sign_solid sg neg : sign_part sg neg -> Forall solid sg.
Proof. destruct 1; apply solid_list; reflexivity. Qed.
Lemma mantissa_clean m ip fp : mantissa m ip fp -> exists pt, Forall digit_code ip /\ Forall digit_code fp /\ ip ++ fp <> [] /\ point_ok pt fp /\ drops m (ip ++ pt ++ fp) /\ not_under m /\ Forall solid m /\ m <> [].
Proof.
  assert (DP : drops (str ".") (str ".")) by (apply drops_char; discriminate). assert (SP : Forall solid (str ".")) by (apply solid_list; reflexivity).
  destruct 1 as [a ip A|a ip A|b fp B|a ip b fp A B].
  - destruct (digit_part_digits _ _ A) as (F & N & SA & NA & _). exists []. split; [exact F|]. split; [constructor|]. split; [rewrite app_nil_r; exact N|]. split; [left; auto|].
    split; [rewrite !app_nil_r; apply drops_digit_part, A|]. split; [exact (not_under_digit_part _ _ A)|]. split; assumption.
  - destruct (digit_part_digits _ _ A) as (F & N & SA & NA & _). exists (str "."). split; [exact F|]. split; [constructor|]. split; [rewrite app_nil_r; exact N|]. split; [right; reflexivity|].
    split; [rewrite app_nil_r; apply drops_app; [apply drops_digit_part, A|exact DP|cbn; lia]|]. split; [pose proof (not_under_digit_part _ _ A); destruct a; [congruence|assumption]|].
    split; [apply Forall_app; split; assumption|]. destruct a; discriminate.
  - destruct (digit_part_digits _ _ B) as (F & N & SA & NA & _). exists (str "."). split; [constructor|]. split; [exact F|]. split; [exact N|]. split; [right; reflexivity|].
    split; [apply (drops_app (str ".") (str ".")); [exact DP|apply drops_digit_part, B|exact (not_under_digit_part _ _ B)]|]. split; [cbn; lia|]. split; [apply Forall_app; split; assumption|discriminate].
  - destruct (digit_part_digits _ _ A) as (F & N & SA & NA & _). destruct (digit_part_digits _ _ B) as (F' & N' & SB & NB & _). exists (str "."). split; [exact F|]. split; [exact F'|].
    split; [destruct ip; [congruence|discriminate]|]. split; [right; reflexivity|].
    split; [apply drops_app; [apply drops_digit_part, A|apply (drops_app (str ".") (str ".")); [exact DP|apply drops_digit_part, B|exact (not_under_digit_part _ _ B)]|cbn; lia]|].
    split; [pose proof (not_under_digit_part _ _ A); destruct a; [congruence|assumption]|]. split; [apply Forall_app; split; [exact SA|apply Forall_app; split; assumption]|]. destruct a; discriminate.
Qed.
Lemma exponent_clean ex e : exponent_part ex e -> exists ex', clean_exp ex' e /\ drops ex ex' /\ not_under ex /\ Forall solid ex.
Proof.
  destruct 1 as [|l sg neg d ds L S1 D].
  - exists []. split; [constructor|]. split; [apply drops_nil|]. split; [exact I|constructor].
  - destruct (digit_part_digits _ _ D) as (F & N & SA & NA & _). assert (exists l0, l = [l0] /\ (l0 = 101 \/ l0 = 69)) as (l0 & -> & L0) by (destruct L as [-> | ->]; eexists; (split; [reflexivity|cbn; auto])).
    exists (l0 :: sg ++ ds). split; [apply ce_some; assumption|].
    assert (ND : not_under d) by exact (not_under_digit_part _ _ D). split; [|split; [cbn; lia|]].
    + apply (drops_app [l0] [l0]); [apply drops_char; lia|apply drops_app; [exact (drops_sign _ _ S1)|apply drops_digit_part, D|exact ND]|destruct S1; [exact ND|cbn; lia|cbn; lia]].
    + apply Forall_app. split; [apply solid_list; destruct L0 as [-> | ->]; reflexivity|]. apply Forall_app. split; [exact (sign_solid _ _ S1)|exact SA].
Qed.
Lemma number_complete b1 sg neg m ip fp ex e b2 : blanks b1 -> blanks b2 -> sign_part sg neg -> mantissa m ip fp -> exponent_part ex e ->
  float_of_text (b1 ++ sg ++ m ++ ex ++ b2) = Some (float_of_fraction neg (decimal_number (ip ++ fp) * 10 ^ Z.max 0 (e - zlen fp)) (10 ^ Z.max 0 (- (e - zlen fp)))) /\
  Forall digit_code (ip ++ fp).
Proof.
  intros B1 B2 S1 M X. destruct (mantissa_clean _ _ _ M) as (pt & Fi & Ff & N & P & DM & NM & SM & M0). destruct (exponent_clean _ _ X) as (ex' & CX & DX & NX & SX).
  split; [|apply Forall_app; split; assumption]. unfold float_of_text.
  replace (b1 ++ sg ++ m ++ ex ++ b2) with (b1 ++ (sg ++ m ++ ex) ++ b2) by (rewrite <- !app_assoc; reflexivity).
  rewrite strip_blanks; [|exact B1|exact B2|apply Forall_app; split; [exact (sign_solid _ _ S1)|apply Forall_app; split; assumption]|destruct sg; [destruct m; [congruence|discriminate]|discriminate]].
  assert (DD : drops (sg ++ m ++ ex) (sg ++ (ip ++ pt ++ fp) ++ ex')).
  { apply drops_app; [exact (drops_sign _ _ S1)|apply drops_app; assumption|destruct m; [congruence|exact NM]]. }
  rewrite (drops_final _ _ DD). rewrite (clean_parse _ neg ip fp e); [reflexivity|]. exists sg, pt, ex'. split; [rewrite <- !app_assoc; reflexivity|]. repeat (split; [assumption|]). assumption.
Qed.
Lemma pow10_pos p : IZR (10 ^ Zpos p) = (10 ^ Pos.to_nat p)%R.
Proof. rewrite <- (positive_nat_Z p). symmetry. apply pow_IZR. Qed.
Lemma ten_power k : (IZR (10 ^ Z.max 0 k) / IZR (10 ^ Z.max 0 (- k)) = powerRZ 10 k)%R.
Proof.
  destruct k as [|p|p].
  - change (10 ^ Z.max 0 0) with 1. change (10 ^ Z.max 0 (- 0)) with 1. cbn [powerRZ]. lra.
  - change (Z.max 0 (Z.pos p)) with (Z.pos p). change (10 ^ Z.max 0 (- Z.pos p)) with 1. cbn [powerRZ]. rewrite pow10_pos. lra.
  - change (Z.max 0 (- Z.neg p)) with (Z.pos p). change (10 ^ Z.max 0 (Z.neg p)) with 1. cbn [powerRZ]. rewrite pow10_pos. lra.
Qed.
(** what a meaning makes of float(): the nearest float, or an infinity *)
Definition denotes (f : pyfloat) (v : meaning) : Prop :=
  match v with Number neg x => rounded f neg x | Infinite neg => f = S754_infinity neg | NotANumber => f = S754_nan end.
Lemma number_value neg ip fp e : Forall digit_code (ip ++ fp) ->
  rounded (float_of_fraction neg (decimal_number (ip ++ fp) * 10 ^ Z.max 0 (e - zlen fp)) (10 ^ Z.max 0 (- (e - zlen fp)))) neg
    ((if neg then -1 else 1) * IZR (decimal_number (ip ++ fp)) * powerRZ 10 (e - zlen fp)).
Proof.
  intros F. assert (P1 : 0 < 10 ^ Z.max 0 (e - zlen fp)) by (apply Z.pow_pos_nonneg; lia). assert (P2 : 0 < 10 ^ Z.max 0 (- (e - zlen fp))) by (apply Z.pow_pos_nonneg; lia).
  pose proof (decimal_number_nonneg _ F) as N. rewrite <- ten_power. rewrite Rmult_assoc. replace (IZR (decimal_number (ip ++ fp)) * (IZR (10 ^ Z.max 0 (e - zlen fp)) / IZR (10 ^ Z.max 0 (- (e - zlen fp)))))%R
    with (IZR (decimal_number (ip ++ fp) * 10 ^ Z.max 0 (e - zlen fp)) / IZR (10 ^ Z.max 0 (- (e - zlen fp))))%R by (rewrite mult_IZR; unfold Rdiv; ring).
  apply float_of_fraction_spec; [apply Z.mul_nonneg_nonneg; lia|exact P2].
Qed.

(** ** words *)
Lemma case_lower s w : Forall (fun l => 97 <= l <= 122) w -> (Forall2 (fun c l => c = l \/ c = l - 32) s w <-> map lower_ascii s = w).
Proof.
  intros F. revert s. induction F as [|l w L F IH]; intros [|c s]; split; intros H; try (inversion H; fail); try reflexivity; try (constructor; fail).
  - inversion H as [|? ? ? ? H1 H2]; subst. cbn [map]. f_equal; [unfold lower_ascii; destruct H1; subst; [replace ((65 <=? l) && (l <=? 90)) with false by lia; reflexivity|replace ((65 <=? l - 32) && (l - 32 <=? 90)) with true by lia; lia]|apply IH, H2].
  - cbn [map] in H. constructor; [|apply IH; congruence]. assert (E : lower_ascii c = l) by congruence. unfold lower_ascii in E. destruct ((65 <=? c) && (c <=? 90)) eqn:Q; lia.
Qed.
Lemma str_letters w : forallb (fun l => (97 <=? l) && (l <=? 122)) (str w) = true -> Forall (fun l => 97 <= l <= 122) (str w).
Proof. intros H. apply Forall_forall. intros l Hl. rewrite forallb_forall in H. specialize (H l Hl). lia. Qed.
Lemma same_case s w : forallb (fun l => (97 <=? l) && (l <=? 122)) (str w) = true -> (same_but_case s w <-> map lower_ascii s = str w).
Proof. intros H. apply case_lower, str_letters, H. Qed.
Lemma word_letters s w : forallb (fun l => (97 <=? l) && (l <=? 122)) (str w) = true -> same_but_case s w -> Forall (fun c => 65 <= c <= 122 /\ c <> 95) s.
Proof.
  intros H. apply str_letters in H. unfold same_but_case. revert s. induction H as [|l r L F IH]; intros s Q; inversion Q as [|c ? s' ? C R]; subst; [constructor|].
  constructor; [destruct C; lia|apply IH, R].
Qed.
Definition letters (w : pystr) : Prop := w <> [] /\ Forall (fun c => 65 <= c <= 122 /\ c <> 95) w.
Lemma word_text b1 sg neg w b2 : blanks b1 -> blanks b2 -> sign_part sg neg -> letters w ->
  drop_underscores false (strip (b1 ++ sg ++ w ++ b2)) = Some (sg ++ w) /\ parse_decimal (sg ++ w) = None /\ take_sign (sg ++ w) = (neg, w).
Proof.
  intros B1 B2 S1 [N L]. assert (SW : Forall solid w) by (eapply Forall_impl; [|exact L]; intros c [C1 C2]; unfold solid, is_space; lia).
  assert (TS : take_sign (sg ++ w) = (neg, w)). { apply take_sign_sign; [exact S1|]. destruct w as [|c w]; [exact I|]. inversion L; subst; lia. }
  split; [|split; [|exact TS]].
  - replace (b1 ++ sg ++ w ++ b2) with (b1 ++ (sg ++ w) ++ b2) by (rewrite <- !app_assoc; reflexivity). rewrite strip_blanks; [|exact B1|exact B2| |].
    + apply drops_final. assert (DW : drops w w). { clear N SW TS. induction L as [|c w [C1 C2] L IH]; [apply drops_nil|]. apply (drops_app [c] [c] w w); [apply drops_char, C2|exact IH|]. destruct L as [|d w D L]; [exact I|]. cbn. apply D. }
      apply drops_app; [exact (drops_sign _ _ S1)|exact DW|]. destruct L as [|d w D L]; [exact I|]. cbn. apply D.
    + apply Forall_app. split; [exact (sign_solid _ _ S1)|exact SW].
    + destruct sg; [exact N|discriminate].
  - unfold parse_decimal. rewrite TS. destruct w as [|c w]; [congruence|]. inversion L as [|? ? [C1 C2] L']; subst. cbn [take_digits]. replace (is_digit c) with false by (unfold is_digit; lia). cbv beta iota.
    replace (c =? 46) with false by lia. reflexivity.
Qed.
Lemma str_same a b : pystr_eqb a b = true <-> a = b.
Proof. unfold pystr_eqb. destruct (list_eq_dec Z.eq_dec a b); split; (congruence || discriminate). Qed.
Lemma letters_of s w : forallb (fun l => (97 <=? l) && (l <=? 122)) (str w) = true -> str w <> [] -> same_but_case s w -> letters s.
Proof. intros H N S1. split; [intros ->; inversion S1 as [Q|]; congruence|exact (word_letters s w H S1)]. Qed.
Lemma float_text_complete s v : float_text s v -> exists f, float_of_text s = Some f /\ denotes f v.
Proof.
  destruct 1 as [b1 sg neg m ip fp ex e b2 B1 B2 S1 M X|b1 sg neg w b2 B1 B2 S1 W|b1 sg neg w b2 B1 B2 S1 W].
  - destruct (number_complete b1 sg neg m ip fp ex e b2 B1 B2 S1 M X) as [E F]. eexists. split; [exact E|]. cbn [denotes]. apply number_value, F.
  - assert (L : letters w) by (destruct W as [W|W]; [apply (letters_of _ "inf")|apply (letters_of _ "infinity")]; (reflexivity || discriminate || exact W)).
    destruct (word_text b1 sg neg w b2 B1 B2 S1 L) as (E1 & E2 & E3). exists (S754_infinity neg). split; [|reflexivity]. unfold float_of_text. rewrite E1, E2. unfold parse_special. rewrite E3.
    assert (Q : pystr_eqb (map lower_ascii w) (str "inf") || pystr_eqb (map lower_ascii w) (str "infinity") = true).
    { apply orb_true_iff. destruct W as [W|W]; [left|right]; apply str_same, same_case; (reflexivity || exact W). }
    rewrite Q. reflexivity.
  - assert (L : letters w) by (apply (letters_of _ "nan"); (reflexivity || discriminate || exact W)).
    destruct (word_text b1 sg neg w b2 B1 B2 S1 L) as (E1 & E2 & E3). exists S754_nan. split; [|reflexivity]. unfold float_of_text. rewrite E1, E2. unfold parse_special. rewrite E3.
    apply same_case in W; [|reflexivity]. rewrite W. reflexivity.
Qed.
Lemma split_number t neg ip fp e : clean_number t neg ip fp e -> forall u, drop_underscores false u = Some t ->
  exists sg m ex, u = sg ++ m ++ ex /\ sign_part sg neg /\ mantissa m ip fp /\ exponent_part ex e.
Proof.
  intros (sg & pt & ex & -> & S1 & Fi & Ff & N & P & X) u E.
  assert (A : exists u1, u = sg ++ u1 /\ drop_underscores false u1 = Some (ip ++ pt ++ fp ++ ex)).
  { destruct S1 as [| |]; [exists u; split; [reflexivity|exact E]|apply (inv_char u 43) in E; [|unfold digit_code; lia]|apply (inv_char u 45) in E; [|unfold digit_code; lia]]; (destruct E as (u1 & -> & E1); exists u1; split; [reflexivity|exact E1]). }
  destruct A as (u1 & -> & E1). clear E.
  assert (XH : not_digit_head ex) by (pose proof (clean_exp_head _ _ X) as Q; destruct ex; [exact I|cbn; unfold digit_code; lia]).
  assert (B : exists m u2, u1 = m ++ u2 /\ mantissa m ip fp /\ drop_underscores false u2 = Some ex).
  { destruct ip as [|c ip].
    - destruct P as [[-> ->]| ->]; [cbn in N; congruence|]. cbn [app] in E1, N. destruct (inv_char u1 46 (fp ++ ex) E1 ltac:(unfold digit_code; lia)) as (u2 & -> & E2).
      destruct (inv_digits fp N _ _ Ff XH E2) as (b & u3 & -> & Db & E3). exists (str "." ++ b), u3. split; [reflexivity|]. split; [apply mt_fraction, Db|exact E3].
    - assert (PH : not_digit_head (pt ++ fp ++ ex)) by (destruct P as [[-> ->]| ->]; [exact XH|cbn; unfold digit_code; lia]).
      destruct (inv_digits (c :: ip) ltac:(discriminate) _ _ Fi PH E1) as (a & u2 & -> & Da & E2). destruct P as [[-> ->]| ->].
      + exists a, u2. split; [reflexivity|]. split; [apply mt_whole, Da|exact E2].
      + destruct (inv_char u2 46 (fp ++ ex) E2 ltac:(unfold digit_code; lia)) as (u3 & -> & E3). destruct fp as [|d fp].
        * exists (a ++ str "."), u3. split; [rewrite <- app_assoc; reflexivity|]. split; [apply mt_point, Da|exact E3].
        * destruct (inv_digits (d :: fp) ltac:(discriminate) _ _ Ff XH E3) as (b & u4 & -> & Db & E4). exists (a ++ str "." ++ b), u4.
          split; [rewrite <- !app_assoc; reflexivity|]. split; [apply mt_both; assumption|exact E4]. }
  destruct B as (m & u2 & -> & M & E2). clear E1. exists sg, m, u2. split; [reflexivity|]. split; [exact S1|]. split; [exact M|].
  destruct X as [|l sg' neg' ds L S2 F N2].
  - assert (u2 = []) as -> by (apply (inv_word []); [constructor|exact E2]). constructor.
  - apply inv_char in E2; [|unfold digit_code; lia]. destruct E2 as (u3 & -> & E3).
    assert (A : exists u4, u3 = sg' ++ u4 /\ drop_underscores false u4 = Some ds).
    { destruct S2; [exists u3; split; [reflexivity|exact E3]|apply (inv_char u3 43) in E3; [|unfold digit_code; lia]|apply (inv_char u3 45) in E3; [|unfold digit_code; lia]]; (destruct E3 as (u4 & -> & E4); exists u4; split; [reflexivity|exact E4]). }
    destruct A as (u4 & -> & E4). rewrite <- (app_nil_r ds) in E4. destruct (inv_digits ds N2 _ [] F I E4) as (d & u5 & -> & Dd & E5).
    assert (u5 = []) as -> by (apply (inv_word []); [constructor|exact E5]). rewrite app_nil_r.
    change (l :: sg' ++ d) with ([l] ++ sg' ++ d). apply ep_some; [destruct L as [-> | ->]; [left|right]; reflexivity|exact S2|exact Dd].
Qed.
Lemma float_text_sound s f : float_of_text s = Some f -> exists v, float_text s v /\ denotes f v.
Proof.
  unfold float_of_text. destruct (strip_inv s) as (b1 & b2 & E & B1 & B2). set (u := strip s) in *. clearbody u.
  destruct (drop_underscores false u) as [t|] eqn:Du; [|discriminate]. destruct (parse_decimal t) as [[[neg n] d]|] eqn:PD.
  - intros EF. destruct (parse_clean _ _ _ _ PD) as (ip & fp & e & C). destruct (split_number _ _ _ _ _ C _ Du) as (sg & m & ex & -> & S1 & M & X).
    eexists. split; [rewrite E, <- !app_assoc; apply ft_number; eassumption|]. cbn [denotes].
    rewrite (clean_parse _ _ _ _ _ C) in PD. assert (n = decimal_number (ip ++ fp) * 10 ^ Z.max 0 (e - zlen fp)) as -> by congruence.
    assert (d = 10 ^ Z.max 0 (- (e - zlen fp))) as -> by congruence. assert (f = float_of_fraction neg (decimal_number (ip ++ fp) * 10 ^ Z.max 0 (e - zlen fp)) (10 ^ Z.max 0 (- (e - zlen fp)))) as -> by congruence.
    apply number_value. destruct (mantissa_clean _ _ _ M) as (_ & F1 & F2 & _). apply Forall_app. split; assumption.
  - unfold parse_special. destruct (take_sign t) as [neg w] eqn:TS. destruct (take_sign_inv _ _ _ TS) as (sg & -> & S1).
    assert (GO : forall w0, forallb (fun l => (97 <=? l) && (l <=? 122)) (str w0) = true -> map lower_ascii w = str w0 -> u = sg ++ w /\ same_but_case w w0).
    { intros w0 H EW. apply same_case in EW; [|exact H]. split; [|exact EW]. apply (inv_word (sg ++ w)); [|exact Du]. apply Forall_app. split.
      - destruct S1; [apply Forall_nil|apply Forall_cons; [cbn; unfold digit_code; lia|apply Forall_nil]|apply Forall_cons; [cbn; unfold digit_code; lia|apply Forall_nil]].
      - pose proof (word_letters _ _ H EW) as L. eapply Forall_impl; [|exact L]. intros c [C1 C2]. unfold digit_code. lia. }
    destruct (pystr_eqb (map lower_ascii w) (str "inf") || pystr_eqb (map lower_ascii w) (str "infinity")) eqn:Q.
    + intros EF. assert (f = S754_infinity neg) as -> by congruence. exists (Infinite neg). split; [|reflexivity]. apply orb_true_iff in Q.
      destruct Q as [Q|Q]; apply str_same in Q; [destruct (GO "inf"%string eq_refl Q) as [-> W]|destruct (GO "infinity"%string eq_refl Q) as [-> W]];
        rewrite E, <- app_assoc; apply ft_infinite; auto.
    + destruct (pystr_eqb (map lower_ascii w) (str "nan")) eqn:Q2; [|discriminate]. intros EF. assert (f = S754_nan) as -> by congruence. exists NotANumber. split; [|reflexivity].
      apply str_same in Q2. destruct (GO "nan"%string eq_refl Q2) as [-> W]. rewrite E, <- app_assoc. apply (ft_nan b1 sg neg); assumption.
Qed.
