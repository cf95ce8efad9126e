(** * L_Address: Base58 against its specification, addresses *)
From Coq Require Import String Lia ZifyBool ZifyNat ZifyN.
From Verif Require Import M_Py M_Hash M_Base58 M_UInt M_Helper S_Address L_Bytes L_Base58.
Ltac Zify.zify_post_hook ::= Z.div_mod_to_equations.

Lemma horner_val base l : horner base l = val base (rev l).
Proof.
  unfold horner. assert (G : forall l a, fold_left (fun n d => base * n + d) l a = a * base ^ zlen l + val base (rev l)).
  { induction l0 as [|x l0 IH]; intros a; cbn [fold_left rev]; [cbn; lia|].
    rewrite IH, val_app, zlen_cons, zlen_rev, Z.pow_add_r by (pose proof (zlen_nonneg l0); lia). cbn [val]. ring. }
  rewrite G. lia.
Qed.

Lemma b58_char_alpha d : 0 <= d < 58 -> b58_char d = b2z (alpha d).
Proof.
  intros H. assert (C : forallb (fun d => b58_char (Z.of_nat d) =? b2z (alpha (Z.of_nat d))) (seq 0 58) = true) by (vm_compute; reflexivity).
  rewrite forallb_forall in C. specialize (C (Z.to_nat d)). rewrite in_seq in C. specialize (C ltac:(lia)). rewrite Z2Nat.id in C by lia. lia.
Qed.
Lemma map_chars ds : Forall (fun d => 0 <= d < 58) ds -> map b58_char ds = map b2z (map alpha ds).
Proof. induction 1 as [|d ds Hd Hds IH]; cbn [map]; [reflexivity|]. rewrite IH, b58_char_alpha by exact Hd. reflexivity. Qed.
Lemma map_ones k : map b2z (repeat one_char k) = repeat 49 k.
Proof. induction k as [|k IH]; cbn [repeat map]; [reflexivity|]. rewrite IH. reflexivity. Qed.
Lemma hd_ne {A} (d x : A) l : d <> x -> (hd d l <> x <-> forall r, l <> x :: r).
Proof.
  intros D. destruct l as [|y l]; cbn; [split; [intros _ r H; discriminate|auto]|]. split; [intros H r E; congruence|intros H E; apply (H l); congruence].
Qed.

(** the encoder satisfies the relation, and the relation determines each side *)
Lemma encode_B58 v : B58 v (ascii_decode (b58encode v)).
Proof.
  destruct (lstrip_spec x00 v) as (k & E & N & _). set (w := lstrip x00 v) in *.
  destruct (digits_ok 58 (le2z (rev w)) ltac:(lia) ltac:(apply le2z_bound)) as (F & T & V).
  exists k, w, (rev (divmod_digits 58 (le2z (rev w)))). split; [exact E|]. split; [apply hd_ne; [discriminate|exact N]|]. repeat split.
  - rewrite E at 1. rewrite encode_shape by exact N. unfold ascii_decode. rewrite map_app, map_ones, map_chars; [reflexivity|apply Forall_rev, F].
  - apply hd_ne; [lia|]. apply no_top_rev', T.
  - apply Forall_rev, F.
  - rewrite !horner_val, rev_involutive, V, le2z_val, map_rev. reflexivity.
Qed.
Lemma B58_encode v t : B58 v t -> ascii_decode (b58encode v) = t.
Proof.
  intros (k & w & ds & -> & N & -> & M & F & E). rewrite hd_ne in N by discriminate. rewrite hd_ne in M by lia.
  rewrite encode_shape by exact N. unfold ascii_decode. rewrite map_app, map_ones, map_chars by exact F. do 3 f_equal.
  rewrite !horner_val, <- map_rev, <- le2z_val in E. rewrite E, digits_unique; [apply rev_involutive|lia|apply Forall_rev, F|apply no_top_rev, M].
Qed.
Lemma B58_decode v t : B58 v t <-> b58decode_bytes (map z2b t) = Ok v /\ Forall (fun c => 0 <= c < 128) t.
Proof.
  assert (A : forall s, Forall (fun c => In c b58_alphabet) s -> Forall (fun c => 0 <= c < 128) (map b2z s)).
  { intros s F. apply Forall_map. eapply Forall_impl; [|exact F]. cbn beta. intros c Hc.
    assert (C : forallb (fun c => b2z c <? 128) b58_alphabet = true) by (vm_compute; reflexivity). rewrite forallb_forall in C. specialize (C c Hc). pose proof (b2z_range c). lia. }
  split.
  - intros B. apply B58_encode in B. subst t. unfold ascii_decode. rewrite map_z2b_b2z, b58_roundtrip. split; [reflexivity|]. apply A. apply b58_decodes_iff. exists v. apply b58_roundtrip.
  - intros [D F]. apply b58_onto in D.
    assert (t = ascii_decode (b58encode v)) as ->; [|apply encode_B58].
    rewrite D. unfold ascii_decode. rewrite map_b2z_z2b; [reflexivity|]. eapply Forall_impl; [|exact F]. cbn. lia.
Qed.

(** ** trimming *)
Lemma drop_while_spec {A} (f : A -> bool) l : exists h, l = h ++ drop_while f l /\ Forall (fun x => f x = true) h /\ (forall x r, drop_while f l = x :: r -> f x = false).
Proof.
  induction l as [|x l (h & E & F & N)]; cbn [drop_while]; [exists []; repeat split; [constructor|discriminate]|].
  destruct (f x) eqn:Fx.
  - exists (x :: h). split; [cbn; congruence|]. split; [constructor; assumption|exact N].
  - exists []. split; [reflexivity|]. split; [constructor|]. intros y r H. congruence.
Qed.
Lemma rstrip_spec {A} (f : A -> bool) l : exists h, l = rstrip_by f l ++ h /\ Forall (fun x => f x = true) h /\ (forall r x, rstrip_by f l = r ++ [x] -> f x = false).
Proof.
  unfold rstrip_by. destruct (drop_while_spec f (rev l)) as (h & E & F & N). exists (rev h). split; [|split].
  - rewrite <- rev_app_distr, <- E, rev_involutive. reflexivity.
  - apply Forall_rev, F.
  - intros r x H. apply (N x (rev r)). rewrite <- (rev_involutive (drop_while _ _)), H, rev_app_distr. reflexivity.
Qed.
Lemma rstrip_unique {A} (f : A -> bool) l t h : l = t ++ h -> Forall (fun x => f x = true) h -> (forall r x, t = r ++ [x] -> f x = false) -> rstrip_by f l = t.
Proof.
  intros -> F N. unfold rstrip_by. rewrite rev_app_distr. assert (G : forall h, Forall (fun x => f x = true) h -> drop_while f (h ++ rev t) = rev t).
  { induction 1 as [|x r Hx Hr IH]; cbn [app drop_while].
    - destruct t as [|y t'] using rev_ind; [reflexivity|]. rewrite rev_app_distr. cbn [rev app drop_while]. rewrite (N t' y eq_refl). reflexivity.
    - rewrite Hx. exact IH. }
  rewrite G by (apply Forall_rev, F). apply rev_involutive.
Qed.
Lemma is_space_iff c : is_space c = true <-> white_ascii c.
Proof. unfold is_space, white_ascii. cbn [In]. lia. Qed.
Lemma is_uspace_iff c : is_uspace c = true <-> white c.
Proof. unfold is_uspace, is_space, white. cbn [In]. lia. Qed.
Lemma trimmed_str rs s t : trimmed white rs s t <-> t = (if rs then rstrip_by is_uspace s else s).
Proof.
  destruct rs; cbn [trimmed]; [|reflexivity]. split.
  - intros (h & E & F & N). symmetry. apply (rstrip_unique _ _ _ h); [exact E| |].
    + eapply Forall_impl; [|exact F]. intros c. apply is_uspace_iff.
    + intros r x Er. destruct (is_uspace x) eqn:U; [|reflexivity]. apply is_uspace_iff in U. exfalso. exact (N r x Er U).
  - intros ->. destruct (rstrip_spec is_uspace s) as (h & E & F & N). exists h. split; [exact E|]. split.
    + eapply Forall_impl; [|exact F]. intros c. apply is_uspace_iff.
    + intros r x Er W. apply is_uspace_iff in W. rewrite (N r x Er) in W. discriminate.
Qed.
Lemma trimmed_bytes rs (b : bytes) t : trimmed white_ascii rs (map b2z b) t <-> t = map b2z (if rs then rstrip_by (fun c => is_space (b2z c)) b else b).
Proof.
  destruct rs; cbn [trimmed]; [|reflexivity].
  assert (M : map b2z (rstrip_by (fun c => is_space (b2z c)) b) = rstrip_by is_space (map b2z b)).
  { unfold rstrip_by. rewrite map_rev. f_equal. rewrite <- map_rev. generalize (rev b). induction l as [|x l IH]; cbn [drop_while map]; [reflexivity|]. destruct (is_space (b2z x)); [exact IH|reflexivity]. }
  rewrite M. split.
  - intros (h & E & F & N). symmetry. apply (rstrip_unique _ _ _ h); [exact E| |].
    + eapply Forall_impl; [|exact F]. intros c. apply is_space_iff.
    + intros r x Er. destruct (is_space x) eqn:U; [|reflexivity]. apply is_space_iff in U. exfalso. exact (N r x Er U).
  - intros ->. destruct (rstrip_spec is_space (map b2z b)) as (h & E & F & N). exists h. split; [exact E|]. split.
    + eapply Forall_impl; [|exact F]. intros c. apply is_space_iff.
    + intros r x Er W. apply is_space_iff in W. rewrite (N r x Er) in W. discriminate.
Qed.

Lemma alphabet_not_space c : In c b58_alphabet -> is_uspace (b2z c) = false /\ is_space (b2z c) = false.
Proof.
  intros H. assert (C : forallb (fun c => negb (is_uspace (b2z c)) && negb (is_space (b2z c))) b58_alphabet = true) by (vm_compute; reflexivity).
  rewrite forallb_forall in C. specialize (C c H). destruct (is_uspace (b2z c)), (is_space (b2z c)); auto; discriminate.
Qed.
Lemma B58_chars v t : B58 v t -> Forall (fun c => In c b58_chars) t.
Proof.
  intros (k & w & ds & _ & _ & -> & _ & F & _). apply Forall_app. split.
  - apply Forall_forall. intros x Hx. apply repeat_spec in Hx. subst. left. reflexivity.
  - apply Forall_map. eapply Forall_impl; [|exact F]. cbn beta. intros d Hd. unfold b58_char. apply nth_In. change (length b58_chars) with 58%nat. lia.
Qed.
Lemma b58_chars_facts c : In c b58_chars -> 0 <= c < 128 /\ is_uspace c = false /\ is_space c = false.
Proof.
  intros H. assert (C : forallb (fun c => (0 <=? c) && (c <? 128) && negb (is_uspace c) && negb (is_space c)) b58_chars = true) by (vm_compute; reflexivity).
  rewrite forallb_forall in C. specialize (C c H). destruct (is_uspace c), (is_space c); try lia.
Qed.
Lemma no_trim {A} (f : A -> bool) l : Forall (fun c => f c = false) l -> rstrip_by f l = l.
Proof.
  intros F. apply (rstrip_unique f l l []); [symmetry; apply app_nil_r|constructor|]. intros r x ->. apply Forall_app in F. destruct F as [_ F]. inversion F. assumption.
Qed.

Lemma ascii_encode_ok t : Forall (fun c => 0 <= c < 128) t -> ascii_encode t = Ok (map z2b t).
Proof.
  intros F. unfold ascii_encode. assert (forallb (fun c => c <? 128) t = true) as ->; [|reflexivity].
  apply forallb_forall. intros c Hc. rewrite Forall_forall in F. specialize (F c Hc). lia.
Qed.

(** decoding text *)
Lemma decode_str_iff rs (s : pystr) v : Forall (fun c => 0 <= c) s -> (b58decode rs (VStr s) = Ok v <-> exists t, trimmed white rs s t /\ B58 v t).
Proof.
  intros P. unfold b58decode, scrub_input. set (u := (if rs then rstrip_by is_uspace s else s) : pystr).
  assert (Pu : Forall (fun c => 0 <= c) u).
  { unfold u. destruct rs; [|exact P]. destruct (rstrip_spec is_uspace s) as (h & E & _). rewrite E in P. apply Forall_app in P. tauto. }
  split.
  - intros H. unfold ascii_encode in H. destruct (forallb (fun c => c <? 128) u) eqn:A; [|cbn [rbind] in H; discriminate H]. cbn [rbind] in H.
    exists u. split; [apply trimmed_str; reflexivity|]. apply B58_decode. split; [exact H|].
    rewrite forallb_forall in A. apply Forall_forall. intros c Hc. specialize (A c Hc). rewrite Forall_forall in Pu. specialize (Pu c Hc). lia.
  - intros (t & T & B). apply trimmed_str in T. fold u in T. subst t. apply B58_decode in B. destruct B as [B F].
    rewrite ascii_encode_ok by exact F. exact B.
Qed.
Lemma decode_bytes_iff rs b v : b58decode rs (VBytes b) = Ok v <-> exists t, trimmed white_ascii rs (map b2z b) t /\ B58 v t.
Proof.
  unfold b58decode, scrub_input. cbn [rbind]. set (u := if rs then rstrip_by (fun c => is_space (b2z c)) b else b). split.
  - intros H. exists (map b2z u). split; [apply trimmed_bytes; reflexivity|]. apply B58_decode. rewrite map_z2b_b2z. split; [exact H|].
    apply Forall_map. assert (X : exists d, b58decode_bytes u = Ok d) by eauto. apply b58_decodes_iff in X. eapply Forall_impl; [|exact X]. cbn beta. intros c Hc.
    assert (C : forallb (fun c => b2z c <? 128) b58_alphabet = true) by (vm_compute; reflexivity). rewrite forallb_forall in C. specialize (C c Hc). pose proof (b2z_range c). lia.
  - intros (t & T & B). apply trimmed_bytes in T. fold u in T. subst t. apply B58_decode in B. rewrite map_z2b_b2z in B. tauto.
Qed.
Lemma B58_self_trim w rs v t : (forall c, In c b58_chars -> ~ w c) -> B58 v t -> trimmed w rs t t.
Proof.
  intros W B. destruct rs; cbn; [|reflexivity]. exists []. split; [symmetry; apply app_nil_r|]. split; [constructor|]. intros r c E.
  apply B58_chars in B. rewrite E in B. apply Forall_app in B. destruct B as [_ B]. inversion B; subst. auto.
Qed.
Lemma chars_not_white c : In c b58_chars -> ~ white c.
Proof. intros H W. apply is_uspace_iff in W. apply b58_chars_facts in H. destruct H as (_ & H & _). congruence. Qed.
Lemma chars_not_white_ascii c : In c b58_chars -> ~ white_ascii c.
Proof. intros H W. apply is_space_iff in W. apply b58_chars_facts in H. destruct H as (_ & _ & H). congruence. Qed.

(** every failure is a ValueError (or its subclass) *)
Lemma decode_str_fail rs s : (exists v, b58decode rs (VStr s) = Ok v) \/ (exists e, b58decode rs (VStr s) = Raise e /\ (e = ValueError \/ e = UnicodeError)).
Proof.
  unfold b58decode, scrub_input, ascii_encode. destruct (forallb _ _); cbn [rbind]; [|eauto].
  match goal with |- context [b58decode_bytes ?x] => destruct (b58_raises x) as [?|E]; [|rewrite E]; eauto end.
Qed.
Lemma decode_bytes_fail rs b : (exists v, b58decode rs (VBytes b) = Ok v) \/ b58decode rs (VBytes b) = Raise ValueError.
Proof. unfold b58decode, scrub_input. cbn [rbind]. apply b58_raises. Qed.

(** ** splitting off the checksum *)
Lemma split_checksum H data : hash_ok H ->
  (last_n 4 data = firstn 4 (sha256 H (sha256 H (drop_last 4 data))) <-> exists p, data = p ++ checksum H p) /\
  (forall p, data = p ++ checksum H p -> drop_last 4 data = p).
Proof.
  intros [H1 _]. assert (L : forall p, length (checksum H p) = 4%nat) by (intros p; unfold checksum; rewrite firstn_length, H1; reflexivity).
  assert (D : forall p, data = p ++ checksum H p -> drop_last 4 data = p).
  { intros p ->. unfold drop_last. rewrite app_length, L. replace (length p + 4 - 4)%nat with (length p) by lia. rewrite firstn_app, Nat.sub_diag, firstn_all, app_nil_r. reflexivity. }
  split; [|exact D]. split.
  - intros E. exists (drop_last 4 data). unfold checksum. rewrite <- E. unfold drop_last, last_n. symmetry. apply firstn_skipn.
  - intros [p E]. rewrite (D p E). unfold last_n. rewrite E at 2. rewrite E at 1. rewrite app_length, L. replace (length p + 4 - 4)%nat with (length p) by lia. rewrite skipn_app, Nat.sub_diag, skipn_all. reflexivity.
Qed.

(** text length and first character from the number *)
Lemma B58_first c rest t n d : b2z c <> 0 -> B58 (c :: rest) t -> 0 < n -> 0 < d < 58 ->
  d * 58 ^ (n - 1) <= horner 256 (map b2z (c :: rest)) < (d + 1) * 58 ^ (n - 1) ->
  zlen t = n /\ nth 0 t 0 = b58_char d.
Proof.
  intros C B N D I. apply B58_encode in B. subst t.
  assert (W : forall r, c :: rest <> x00 :: r) by (intros r E; assert (c = x00) by congruence; subst c; apply C; reflexivity).
  pose proof (encode_shape 0 (c :: rest) W) as ES. cbn [repeat app] in ES. rewrite ES. clear ES. rewrite horner_val, <- map_rev, <- le2z_val in I.
  destruct (last_digit 58 _ n d ltac:(lia) N D I) as [L T]. set (ds := divmod_digits 58 _) in *. split.
  - unfold ascii_decode. rewrite !zlen_map, zlen_rev. exact L.
  - destruct ds as [|x l] using rev_ind; [rewrite zlen_nil in L; lia|]. rewrite last_last in T. subst x. rewrite rev_app_distr. cbn. symmetry. apply b58_char_alpha. lia.
Qed.
Lemma horner_cons c rest : horner 256 (map b2z (c :: rest)) = b2z c * 256 ^ zlen rest + le2z (rev rest).
Proof.
  rewrite horner_val, <- map_rev, <- le2z_val. cbn [rev]. rewrite le2z_app, zlen_rev. cbn [le2z]. ring.
Qed.

Lemma utf8_ascii t : Forall (fun c => 0 <= c < 128) t -> utf8_encode t = Ok (map z2b t).
Proof.
  intros F. unfold utf8_encode. assert (existsb is_surrogate t = false) as ->.
  { apply Bool.not_true_is_false. intros E. apply existsb_exists in E. destruct E as (c & Hc & S). rewrite Forall_forall in F. specialize (F c Hc). unfold is_surrogate in S. lia. }
  f_equal. induction F as [|c t Hc Ht IH]; cbn [utf8_chars map]; [reflexivity|]. unfold utf8_char. replace (c <? 128) with true by lia. cbn [app]. congruence.
Qed.
