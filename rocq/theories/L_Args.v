(** * L_Args: lemmas for C118 *)
From Coq Require Import String Lia.
From Verif Require Import M_Py M_Cli M_Args S_Args.

Definition words : list (opt * pystr) :=
  [(OHelp, str "help"); (OVersion, str "version"); (OAddress, str "address-to-scripthash"); (OScripthash, str "scripthash-to-address"); (OWallet, str "create-wallet")].
Definition with_value (n : pystr) (e : option pystr) : pystr := match e with None => n | Some v => n ++ 61 :: v end.
Lemma means_firstn n w : means n w -> exists k, (2 < k <= length (str "--" ++ w))%nat /\ n = firstn k (str "--" ++ w).
Proof.
  intros (r & E & L). exists (length n). rewrite <- E, app_length, firstn_app, Nat.sub_diag, firstn_all. cbn [firstn]. rewrite app_nil_r. split; [lia|reflexivity].
Qed.
Lemma enum_lt (P : nat -> Prop) m : (forall k, In k (seq 0 (S m)) -> P k) -> forall k, (k <= m)%nat -> P k.
Proof. intros H k L. apply H, in_seq. lia. Qed.
(** an option in full or abbreviated is recognised *)
Lemma classify_option E n o w e : In (o, w) words -> means n w -> classify E (with_value n e) = IOpt o e.
Proof.
  intros I M. apply means_firstn in M as (k & L & ->). destruct L as [L1 L2].
  cbn [words In] in I. destruct I as [I|[I|[I|[I|[I|[]]]]]]; injection I as <- <-; vm_compute in L2;
  (do 3 (destruct k as [|k]; [lia|]); clear L1; repeat first [exfalso; lia | destruct k as [|k]; [clear L2; destruct e as [v|]; vm_compute; reflexivity|]]).
Qed.
Lemma starts_iff p s : starts p s = true <-> exists r, s = p ++ r.
Proof.
  revert s. induction p as [|c p IH]; intros s; cbn [starts app]; [split; eauto|]. destruct s as [|d s]; [split; [discriminate|intros (r & E); discriminate]|].
  rewrite andb_true_iff, IH, Z.eqb_eq. split; [intros (-> & r & ->); eauto|intros (r & E); injection E as -> ->; eauto].
Qed.
Lemma partition_spec s : let '(n, e) := partition_eq s in s = with_value n e.
Proof.
  induction s as [|c s IH]; [reflexivity|]. cbn [partition_eq]. destruct (Z.eqb_spec c 61) as [->|N]; [reflexivity|].
  destruct (partition_eq s) as [n e]. rewrite IH. destruct e; reflexivity.
Qed.
Lemma find_option_some s o : find_option s = Some o -> In (s, o) option_strings.
Proof.
  unfold find_option. destruct (find _ _) as [[s' o']|] eqn:F; [|discriminate]. intros E. injection E as <-. apply find_some in F as [I Q]. cbn [fst snd] in *.
  destruct (list_eq_dec _ _ _) as [->|]; [exact I|discriminate].
Qed.
Lemma full_means o w : In (o, w) words -> means (str "--" ++ w) w.
Proof.
  intros I. exists []. split; [apply app_nil_r|]. cbn [words In] in I. destruct I as [I|[I|[I|[I|[I|[]]]]]]; injection I as <- <-; vm_compute; lia.
Qed.
Lemma options_words s o : In (s, o) option_strings -> (s = str "-h" /\ o = OHelp) \/ exists w, In (o, w) words /\ s = str "--" ++ w.
Proof.
  intros I. cbn [option_strings In] in I. destruct I as [I|[I|[I|[I|[I|[I|[]]]]]]]; injection I as <- <-; [left; auto|right..]; eexists; (split; [unfold words; cbn [In]|reflexivity]).
  - left; reflexivity.
  - right; left; reflexivity.
  - right; right; left; reflexivity.
  - right; right; right; left; reflexivity.
  - right; right; right; right; left; reflexivity.
Qed.
(** the three-letter beginnings are different *)
Lemma filter_words n : match filter (fun p => starts (45 :: 45 :: n) (fst p)) option_strings with
  | [] => n <> [] /\ forall o w, In (o, w) words -> ~ means (45 :: 45 :: n) w
  | [(s, o)] => exists w, In (o, w) words /\ means (45 :: 45 :: n) w
  | _ => n = [] end.
Proof.
  destruct n as [|c n]; [reflexivity|].
  assert (R : forall w, starts (45 :: 45 :: c :: n) (str "--" ++ w) = true <-> means (45 :: 45 :: c :: n) w).
  { intros w. rewrite starts_iff. unfold means. split; intros (r & E); exists r; [split; [congruence|cbn [length]; lia]|symmetry; apply E]. }
  unfold option_strings. cbn [filter fst].
  change (starts (45 :: 45 :: c :: n) (str "-h")) with false. cbn iota.
  change (str "--help") with (str "--" ++ str "help"). change (str "--version") with (str "--" ++ str "version").
  change (str "--address-to-scripthash") with (str "--" ++ str "address-to-scripthash").
  change (str "--scripthash-to-address") with (str "--" ++ str "scripthash-to-address"). change (str "--create-wallet") with (str "--" ++ str "create-wallet").
  pose proof (R (str "help")) as R1. pose proof (R (str "version")) as R2. pose proof (R (str "address-to-scripthash")) as R3.
  pose proof (R (str "scripthash-to-address")) as R4. pose proof (R (str "create-wallet")) as R5.
  assert (First : forall w d r, w = d :: r -> starts (45 :: 45 :: c :: n) (str "--" ++ w) = true -> c = d).
  { intros w d r -> S. apply starts_iff in S as (x & S). cbn in S. congruence. }
  pose proof (First (str "help") 104 _ eq_refl) as F1. pose proof (First (str "version") 118 _ eq_refl) as F2. pose proof (First (str "address-to-scripthash") 97 _ eq_refl) as F3.
  pose proof (First (str "scripthash-to-address") 115 _ eq_refl) as F4. pose proof (First (str "create-wallet") 99 _ eq_refl) as F5. clear First.
  destruct (starts _ (str "--" ++ str "help")); destruct (starts _ (str "--" ++ str "version")); try (exfalso; specialize (F1 eq_refl); specialize (F2 eq_refl); lia);
  destruct (starts _ (str "--" ++ str "address-to-scripthash")); try (exfalso; specialize (F3 eq_refl); first [specialize (F1 eq_refl)|specialize (F2 eq_refl)]; lia);
  destruct (starts _ (str "--" ++ str "scripthash-to-address")); try (exfalso; specialize (F4 eq_refl); first [specialize (F1 eq_refl)|specialize (F2 eq_refl)|specialize (F3 eq_refl)]; lia);
  destruct (starts _ (str "--" ++ str "create-wallet")); try (exfalso; specialize (F5 eq_refl); first [specialize (F1 eq_refl)|specialize (F2 eq_refl)|specialize (F3 eq_refl)|specialize (F4 eq_refl)]; lia).
  - exists (str "help"). split; [unfold words; cbn [In]; auto|apply R1; reflexivity].
  - exists (str "version"). split; [unfold words; cbn [In]; auto|apply R2; reflexivity].
  - exists (str "address-to-scripthash"). split; [unfold words; cbn [In]; auto|apply R3; reflexivity].
  - exists (str "scripthash-to-address"). split; [unfold words; cbn [In]; auto 6|apply R4; reflexivity].
  - exists (str "create-wallet"). split; [unfold words; cbn [In]; auto 7|apply R5; reflexivity].
  - split; [discriminate|]. intros o w I. cbn [words In] in I.
    destruct I as [I|[I|[I|[I|[I|[]]]]]]; injection I as <- <-; [rewrite <- R1|rewrite <- R2|rewrite <- R3|rewrite <- R4|rewrite <- R5]; discriminate.
Qed.
(** what each kind of argument looks like *)
Lemma words_in o w : In (o, w) words -> In w (map str ["help"; "version"; "address-to-scripthash"; "scripthash-to-address"; "create-wallet"]%string).
Proof. intros I. apply (in_map snd) in I. exact I. Qed.
Lemma in_words w : In w (map str ["help"; "version"; "address-to-scripthash"; "scripthash-to-address"; "create-wallet"]%string) -> exists o, In (o, w) words.
Proof. intros I. change (In w (map snd words)) in I. apply in_map_iff in I as ([o w'] & <- & I). exists o. exact I. Qed.
Lemma partition_value n w v : means n w -> (exists o, In (o, w) words) -> partition_eq (n ++ 61 :: v) = (n, Some v).
Proof.
  intros M (o & I). apply means_firstn in M as (k & L & ->). destruct L as [L1 L2].
  cbn [words In] in I. destruct I as [I|[I|[I|[I|[I|[]]]]]]; injection I as <- <-; vm_compute in L2;
  (do 3 (destruct k as [|k]; [lia|]); clear L1; repeat first [exfalso; lia | destruct k as [|k]; [clear L2; vm_compute; reflexivity|]]).
Qed.
Definition dashless E s := if looks_negative E s then IArg else if existsb (Z.eqb 32) s then IArg else IUnknown.
Definition classify_post (E : argenv) (s : pystr) (i : item) : Prop :=
  match i with
  | IOpt o e => (s = str "-h" /\ o = OHelp /\ e = None) \/ exists n w, In (o, w) words /\ means n w /\ s = with_value n e
  | IShort => exists r, s = str "-h" ++ r /\ r <> []
  | IAmbiguous => s = str "--" \/ exists r, s = str "--" ++ 61 :: r
  | IArg => (forall r, s <> str "-" ++ r) \/ s = str "-" \/ ((looks_negative E s = true \/ In 32 s) /\ ~ like_an_option s)
  | IUnknown => (exists d r, s = 45 :: d :: r) /\ looks_negative E s = false /\ ~ In 32 s /\ ~ like_an_option s
  | IDash => False
  end.
Lemma like_cases c r : like_an_option (45 :: c :: r) ->
  (c = 104 \/ c = 45).
Proof.
  intros [[x E]|[[x E]|[E|(n & w & I & (x & M & L) & E)]]]; [cbn in E; left; congruence|cbn in E; right; congruence|cbn in E; right; congruence|right].
  destruct n as [|a [|b n]]; [cbn in L; lia|cbn in L; lia|]. cbn in M. destruct E as [E|[v E]]; cbn in E; congruence.
Qed.
Lemma classify_rest E d r n e : find_option (45 :: d :: r) = None -> partition_eq (45 :: d :: r) = (n, e) ->
  classify_post E (45 :: d :: r)
    (if d =? 45 then
       match filter (fun p => starts n (fst p)) option_strings with
       | [] => dashless E (45 :: d :: r)
       | [p] => IOpt (snd p) e
       | _ => IAmbiguous
       end
     else if d =? 104 then IShort else dashless E (45 :: d :: r)).
Proof.
  intros F Ep. pose proof (partition_spec (45 :: d :: r)) as P. rewrite Ep in P.
  assert (D : ~ like_an_option (45 :: d :: r) -> classify_post E (45 :: d :: r) (dashless E (45 :: d :: r))).
  { intros K. unfold dashless. destruct (looks_negative E _) eqn:Ln; [right; right; auto|]. destruct (existsb _ _) eqn:Ex.
    - right; right. split; [right|exact K]. apply existsb_exists in Ex as (y & Hy & Ey). apply Z.eqb_eq in Ey. subst y. exact Hy.
    - split; [exists d, r; reflexivity|]. split; [exact Ln|]. split; [|exact K]. intros Hi. assert (existsb (Z.eqb 32) (45 :: d :: r) = true) by (apply existsb_exists; exists 32; auto). congruence. }
  destruct (Z.eqb_spec d 45) as [->|Nd].
  - assert (exists n', n = 45 :: 45 :: n') as [n' ->].
    { cbn [partition_eq] in Ep. change (45 =? 61) with false in Ep. cbn iota in Ep. destruct (partition_eq r) as [m f]. injection Ep as <- <-. eauto. }
    pose proof (filter_words n') as Fw. destruct (filter _ _) as [|[s o] [|p l]].
    + destruct Fw as [N1 Fw]. apply D. intros [[x K]|[[x K]|[K|(m & w & I & M & K)]]].
      * cbn in K. congruence.
      * cbn in K. injection K as ->. cbn [partition_eq] in Ep. change (45 =? 61) with false in Ep. change (61 =? 61) with true in Ep. cbn iota in Ep. congruence.
      * cbn in K. injection K as ->. cbn in Ep. congruence.
      * apply in_words in I as (o & I). apply (Fw o w I). destruct K as [K|[v K]].
        -- destruct e as [v|]; [exfalso|cbn [with_value] in P; rewrite <- P, K; exact M].
           cbn [with_value] in P. destruct M as (x & Mx & L). assert (H : In 61 (str "--" ++ w)) by (rewrite <- Mx, <- K, P; apply in_or_app; left; apply in_or_app; right; left; reflexivity).
           cbn [words In] in I. destruct I as [I|[I|[I|[I|[I|[]]]]]]; injection I as <- <-; cbn in H; intuition discriminate.
        -- assert (Q := partition_value m w v M (ex_intro _ o I)). rewrite K in Ep. rewrite Q in Ep. injection Ep as <- <-. exact M.
    + destruct Fw as (w & I & M). right. exists (45 :: 45 :: n'), w. auto.
    + subst n'. destruct e as [v|]; [right; exists v; exact P|left; exact P].
  - assert (K : d <> 104 -> ~ like_an_option (45 :: d :: r)) by (intros Nh K; apply like_cases in K as [K|K]; congruence).
    destruct (Z.eqb_spec d 104) as [->|Nh]; [|apply D, K, Nh]. exists (r). split; [reflexivity|]. intros ->. vm_compute in F. discriminate.
Qed.
Lemma classify_is E s : classify_post E s (classify E s).
Proof.
  destruct s as [|c r]; [left; discriminate|]. unfold classify. destruct (Z.eqb_spec c 45) as [->|N]; cbn [negb].
  2: { left. intros x Q. cbn in Q. congruence. }
  destruct (find_option (45 :: r)) as [o|] eqn:F.
  { apply find_option_some, options_words in F as [[-> ->]|(w & I & ->)]; [left; auto|right]. exists (str "--" ++ w), w. split; [exact I|]. split; [apply (full_means o), I|reflexivity]. }
  destruct r as [|d r]; [right; left; reflexivity|].
  pose proof (partition_spec (45 :: d :: r)) as P. destruct (partition_eq (45 :: d :: r)) as [n e] eqn:Ep.
  pose proof (classify_rest E d r n e F Ep) as R. fold (dashless E (45 :: d :: r)).
  destruct e as [v|]; [|exact R]. destruct (find_option n) as [o|] eqn:Fn; [|exact R].
  apply find_option_some, options_words in Fn as [[-> ->]|(w & I & ->)].
  - change (list_eq_dec Z.eq_dec (str "-h") (str "-h")) with (list_eq_dec Z.eq_dec (str "-h") (str "-h")). destruct (list_eq_dec Z.eq_dec (str "-h") (str "-h")) as [_|X]; [|congruence].
    rewrite P. exists (61 :: v). split; [reflexivity|discriminate].
  - assert (Q : classify_post E (45 :: d :: r) (IOpt o (Some v))) by (right; exists (str "--" ++ w), w; split; [exact I|]; split; [apply (full_means o), I|exact P]).
    destruct o; exact Q.
Qed.

Lemma like_option_named o w n e : In (o, w) words -> means n w -> like_an_option (with_value n e).
Proof.
  intros I M. right; right; right. exists n, w. split; [eapply words_in, I|]. split; [exact M|]. destruct e as [v|]; [right; exists v; reflexivity|left; reflexivity].
Qed.
Lemma like_dash s : like_an_option s -> exists d r, s = 45 :: d :: r.
Proof.
  intros [[x E]|[[x E]|[E|(n & w & I & (x & M & L) & E)]]]; subst.
  - exists 104, x. reflexivity.
  - exists 45, (61 :: x). reflexivity.
  - exists 45, []. reflexivity.
  - destruct n as [|a [|b n]]; [cbn in L; lia|cbn in L; lia|]. cbn in M. assert (a = 45) as -> by congruence. exists b. destruct E as [E|[v E]]; rewrite E; cbn [app]; eauto.
Qed.
Lemma a_value_not_like E v : a_value E v -> ~ like_an_option v.
Proof.
  intros [A|[->|[_ A]]] K; [| |exact (A K)].
  - apply like_dash in K as (d & r & ->). apply (A (d :: r)). reflexivity.
  - apply like_dash in K as (d & r & K). discriminate.
Qed.
Lemma a_value_iff E v : a_value E v <-> v <> str "--" /\ classify E v = IArg.
Proof.
  split.
  - intros A. pose proof (a_value_not_like E v A) as N. split; [intros ->; apply N; right; right; left; reflexivity|].
    pose proof (classify_is E v) as C. destruct (classify E v) as [| | |o e| |]; cbn [classify_post] in C; [reflexivity|destruct C| | | |]; exfalso.
    + destruct C as ((d & r & ->) & C1 & C2 & _). destruct A as [A|[A|[[A|A] _]]]; [apply (A (d :: r)); reflexivity|discriminate|congruence|exact (C2 A)].
    + destruct C as [(-> & _)|(n & w & I & M & ->)]; [apply N; left; exists []; reflexivity|]. exact (N (like_option_named o w n e I M)).
    + destruct C as (r & -> & _). apply N. left. exists r. reflexivity.
    + destruct C as [->|(r & ->)]; apply N; [right; right; left; reflexivity|right; left; exists r; reflexivity].
  - intros [N C]. pose proof (classify_is E v) as P. rewrite C in P. exact P.
Qed.
Lemma option_not_dashes n w e : means n w -> with_value n e <> str "--".
Proof.
  intros (r & _ & L) E. assert (length (with_value n e) = 2%nat) as Q by (rewrite E; reflexivity). destruct e; cbn [with_value] in Q; [rewrite app_length in Q|]; lia.
Qed.

(** ** the whole command line *)
Definition apply_setting (o : options) (s : setting) : options :=
  match s with
  | Address v => mkOptions (o_any o) (Some v) (o_scripthash_to_address o) (o_create_wallet o)
  | Scripthash v => mkOptions (o_any o) (o_address_to_scripthash o) (Some v) (o_create_wallet o)
  | Wallet => mkOptions (o_any o) (o_address_to_scripthash o) (o_scripthash_to_address o) true
  end.
Lemma classify_all_cons E s r : s <> str "--" -> classify E s <> IAmbiguous ->
  classify_all E (s :: r) = match classify_all E r with Some t => Some ((classify E s, s) :: t) | None => None end.
Proof. intros N A. cbn [classify_all]. destruct (list_eq_dec _ _ _); [contradiction|]. revert A. destruct (classify E s); intros A; solve [reflexivity | destruct (A eq_refl)]. Qed.
Lemma classify_all_named E n o w e r : In (o, w) words -> means n w ->
  classify_all E (with_value n e :: r) = match classify_all E r with Some t => Some ((IOpt o e, with_value n e) :: t) | None => None end.
Proof. intros I M. rewrite classify_all_cons, (classify_option E n o w e I M); [reflexivity|eapply option_not_dashes, M|rewrite (classify_option E n o w e I M); discriminate]. Qed.
Lemma classify_all_value E v r : a_value E v -> classify_all E (v :: r) = match classify_all E r with Some t => Some ((IArg, v) :: t) | None => None end.
Proof. intros A. apply a_value_iff in A as [N C]. rewrite classify_all_cons, C; [reflexivity|exact N|rewrite C; discriminate]. Qed.
Lemma in_address : In (OAddress, str "address-to-scripthash") words. Proof. unfold words; cbn [In]; auto. Qed.
Lemma in_scripthash : In (OScripthash, str "scripthash-to-address") words. Proof. unfold words; cbn [In]; auto 6. Qed.
Lemma in_wallet : In (OWallet, str "create-wallet") words. Proof. unfold words; cbn [In]; auto 7. Qed.
Lemma in_help : In (OHelp, str "help") words. Proof. unfold words; cbn [In]; auto. Qed.
Lemma in_version : In (OVersion, str "version") words. Proof. unfold words; cbn [In]; auto. Qed.
(** the settings of a prefix are made, the rest is read after them *)
Lemma consume_prefix E pre l : command_line E pre l -> forall post t, classify_all E post = Some t ->
  exists t', classify_all E (pre ++ post) = Some t' /\ forall o, consume t' o false = consume t (fold_left apply_setting l o) false.
Proof.
  induction 1 as [|n v r l M A C IH|n v r l M C IH|n v r l M A C IH|n v r l M C IH|n r l M C IH]; intros post t Et.
  - exists t. split; [exact Et|]. reflexivity.
  - destruct (IH post t Et) as (t' & E' & F). cbn [app]. change n with (with_value n None) at 1. rewrite (classify_all_named E n _ _ None _ in_address M), (classify_all_value E v _ A), E'.
    eexists. split; [reflexivity|]. intros o. cbn [consume fold_left apply_setting]. apply F.
  - destruct (IH post t Et) as (t' & E' & F). cbn [app]. change (n ++ 61 :: v) with (with_value n (Some v)). rewrite (classify_all_named E n _ _ (Some v) _ in_address M), E'.
    eexists. split; [reflexivity|]. intros o. cbn [consume fold_left apply_setting]. apply F.
  - destruct (IH post t Et) as (t' & E' & F). cbn [app]. change n with (with_value n None) at 1. rewrite (classify_all_named E n _ _ None _ in_scripthash M), (classify_all_value E v _ A), E'.
    eexists. split; [reflexivity|]. intros o. cbn [consume fold_left apply_setting]. apply F.
  - destruct (IH post t Et) as (t' & E' & F). cbn [app]. change (n ++ 61 :: v) with (with_value n (Some v)). rewrite (classify_all_named E n _ _ (Some v) _ in_scripthash M), E'.
    eexists. split; [reflexivity|]. intros o. cbn [consume fold_left apply_setting]. apply F.
  - destruct (IH post t Et) as (t' & E' & F). cbn [app]. change n with (with_value n None) at 1. rewrite (classify_all_named E n _ _ None _ in_wallet M), E'.
    eexists. split; [reflexivity|]. intros o. cbn [consume fold_left apply_setting]. apply F.
Qed.
(** what is accepted *)
Lemma consume_extras t : forall o o', consume t o true <> POptions o'.
Proof.
  assert (H : forall n t, (length t <= n)%nat -> forall o o', consume t o true <> POptions o').
  { induction n as [|n IH]; intros [|[i s] r] L o o'; cbn [length] in L; try lia; try (cbn [consume]; discriminate).
    cbn [consume]. destruct i as [| | |k e| |]; try (apply IH; lia); try discriminate. destruct k, e as [v|]; try discriminate; try (apply IH; lia);
      (destruct r as [|[[| | |k e| |] v] r']; try discriminate; apply IH; cbn [length] in L; lia). }
  apply (H (length t) t (le_n _)).
Qed.
Lemma classify_all_inv E s r t : classify_all E (s :: r) = Some t ->
  (s = str "--" /\ t = (IDash, s) :: map (fun x => (IArg, x)) r) \/
  (s <> str "--" /\ exists t', classify_all E r = Some t' /\ t = (classify E s, s) :: t').
Proof.
  cbn [classify_all]. destruct (list_eq_dec _ _ _) as [->|N]; [left; split; congruence|]. intros H. right. split; [exact N|].
  destruct (classify E s); try discriminate; (destruct (classify_all E r) as [t'|]; [|discriminate]; exists t'; split; congruence).
Qed.
Lemma consume_accepted E : forall m argv, (length argv <= m)%nat -> forall t o o', classify_all E argv = Some t -> consume t o false = POptions o' ->
  exists l, command_line E argv l /\ o' = fold_left apply_setting l o.
Proof.
  induction m as [|m IH]; intros [|s r] L t o o' Ct Co; cbn [length] in L; try lia.
  1, 2: cbn [classify_all] in Ct; injection Ct as <-; cbn [consume] in Co; injection Co as <-; exists []; split; [constructor|reflexivity].
  apply classify_all_inv in Ct as [[-> ->]|(N & t' & Ct & ->)]; [cbn [consume] in Co; destruct (consume_extras _ _ _ Co)|].
  pose proof (classify_is E s) as K. destruct (classify E s) as [| | |k e| |] eqn:Cs; cbn [consume] in Co;
    try (destruct (consume_extras _ _ _ Co)); try discriminate.
  cbn [classify_post] in K. destruct K as [(-> & -> & ->)|(n & w & I & M & Es)]; [discriminate|].
  assert (W : forall k w', In (k, w') words -> In (k, w) words -> w = w').
  { clear. intros k w' A B. cbn [words In] in A, B. intuition congruence. }
  destruct k; [destruct e; discriminate|destruct e; discriminate| | |].
  - assert (w = str "address-to-scripthash") as -> by (apply (W _ _ in_address I)). destruct e as [v|].
    + destruct (IH r ltac:(lia) t' _ _ Ct Co) as (l & C & ->). exists (Address v :: l). split; [|reflexivity]. rewrite Es. apply cl_address_eq; assumption.
    + destruct t' as [|[[| | | | |] v] t'']; try discriminate. destruct r as [|v' r]; [discriminate|].
      apply classify_all_inv in Ct as [[_ Q]|(N' & t3 & Ct & Q)]; [discriminate|]. assert (v = v' /\ classify E v' = IArg /\ t'' = t3) as (-> & Ca & ->) by (split; [congruence|split; congruence]).
      destruct (IH r ltac:(cbn [length] in L; lia) t3 _ _ Ct Co) as (l & C & ->). exists (Address v' :: l). split; [|reflexivity]. rewrite Es. apply cl_address; [exact M|apply a_value_iff; auto|exact C].
  - assert (w = str "scripthash-to-address") as -> by (apply (W _ _ in_scripthash I)). destruct e as [v|].
    + destruct (IH r ltac:(lia) t' _ _ Ct Co) as (l & C & ->). exists (Scripthash v :: l). split; [|reflexivity]. rewrite Es. apply cl_scripthash_eq; assumption.
    + destruct t' as [|[[| | | | |] v] t'']; try discriminate. destruct r as [|v' r]; [discriminate|].
      apply classify_all_inv in Ct as [[_ Q]|(N' & t3 & Ct & Q)]; [discriminate|]. assert (v = v' /\ classify E v' = IArg /\ t'' = t3) as (-> & Ca & ->) by (split; [congruence|split; congruence]).
      destruct (IH r ltac:(cbn [length] in L; lia) t3 _ _ Ct Co) as (l & C & ->). exists (Scripthash v' :: l). split; [|reflexivity]. rewrite Es. apply cl_scripthash; [exact M|apply a_value_iff; auto|exact C].
  - assert (w = str "create-wallet") as -> by (apply (W _ _ in_wallet I)). destruct e as [v|]; [discriminate|].
    destruct (IH r ltac:(lia) t' _ _ Ct Co) as (l & C & ->). exists (Wallet :: l). split; [|reflexivity]. rewrite Es. apply cl_wallet; assumption.
Qed.
Lemma apply_settings l : forall o, fold_left apply_setting l o =
  mkOptions (o_any o) (match last_value the_address l with Some v => Some v | None => o_address_to_scripthash o end)
    (match last_value the_scripthash l with Some v => Some v | None => o_scripthash_to_address o end)
    (o_create_wallet o || existsb (fun s => match s with Wallet => true | _ => false end) l).
Proof.
  induction l as [|s l IH]; intros o; [destruct o; cbn; rewrite orb_false_r; reflexivity|]. cbn [fold_left last_value existsb]. rewrite IH.
  destruct s; cbn [apply_setting o_any o_address_to_scripthash o_scripthash_to_address o_create_wallet the_address the_scripthash orb];
    destruct (last_value the_address l), (last_value the_scripthash l); try reflexivity; rewrite ?orb_true_r; try reflexivity.
Qed.
Lemma parse_accepted E argv o : parse_args E argv = POptions o <-> exists l, command_line E argv l /\ o = options_of argv l.
Proof.
  assert (Q : forall l, fold_left apply_setting l (mkOptions (match argv with [] => false | _ => true end) None None false) = options_of argv l).
  { intros l. rewrite apply_settings. cbn [o_any o_address_to_scripthash o_scripthash_to_address o_create_wallet orb]. unfold options_of.
    destruct argv; cbn [length Nat.eqb negb]; destruct (last_value the_address l), (last_value the_scripthash l); reflexivity. }
  unfold parse_args. split.
  - destruct (classify_all E argv) as [t|] eqn:C; [|discriminate]. intros H. destruct (consume_accepted E _ argv (le_n _) t _ _ C H) as (l & Cl & ->). exists l. rewrite Q. auto.
  - intros (l & Cl & ->). destruct (consume_prefix E argv l Cl [] [] eq_refl) as (t' & C & F). rewrite app_nil_r in C. rewrite C, F, Q. reflexivity.
Qed.
(** which lines are read at all *)
Definition ambiguous (s : pystr) : Prop := exists r, s = str "--" ++ 61 :: r.
Lemma classify_ambiguous E s : s <> str "--" -> classify E s = IAmbiguous <-> ambiguous s.
Proof.
  intros N. pose proof (classify_is E s) as C. split.
  - intros H. rewrite H in C. destruct C as [C|C]; [contradiction|exact C].
  - intros (r & ->). destruct (classify E (str "--" ++ 61 :: r)) as [| | |o e| |]; cbn [classify_post] in C; [exfalso|destruct C|exfalso|exfalso|exfalso|reflexivity].
    + destruct C as [C|[C|[_ C]]]; [apply (C (45 :: 61 :: r)); reflexivity|discriminate|apply C; right; left; exists r; reflexivity].
    + destruct C as (_ & _ & _ & C). apply C. right; left; exists r; reflexivity.
    + destruct C as [(C & _)|(n & w & I & (x & M & L) & C)]; [discriminate|]. destruct n as [|a [|b [|c n]]]; try (cbn [length] in L; lia).
      assert (c = 61) as -> by (destruct e; cbn in C; congruence). assert (K : In 61 (str "--" ++ w)) by (rewrite <- M; cbn [app In]; auto).
      cbn [words In] in I. destruct I as [I|[I|[I|[I|[I|[]]]]]]; injection I as <- <-; cbn in K; intuition discriminate.
    + destruct C as (x & C & _). cbn in C. congruence.
Qed.
Lemma classify_all_some E l : (forall s, In s l -> ~ ambiguous s) -> exists t, classify_all E l = Some t.
Proof.
  induction l as [|s l IH]; intros H; [eexists; reflexivity|]. destruct IH as [t Ht]; [intros x Hx; apply H; right; exact Hx|].
  cbn [classify_all]. destruct (list_eq_dec _ _ _) as [|N]; [eexists; reflexivity|]. rewrite Ht. destruct (classify E s) eqn:C; try (eexists; reflexivity).
  apply (classify_ambiguous E s N) in C. destruct (H s (or_introl eq_refl) C).
Qed.
(** what any other outcome means *)
Definition outcome_post (E : argenv) (argv : list pystr) (p : parsed) : Prop :=
  match p with
  | POptions _ | PUsage => True
  | PHelp => exists s, In s argv /\ asks_help s
  | PVersion => exists s, In s argv /\ asks_version s
  | PShort s => In s argv /\ exists r, s = str "-h" ++ r /\ r <> []
  end.
Lemma outcome_mono E argv argv' p : (forall s, In s argv -> In s argv') -> outcome_post E argv p -> outcome_post E argv' p.
Proof. intros I. destruct p; cbn [outcome_post]; [auto|intros (s & A & B); exists s; auto|intros (s & A & B); exists s; auto|auto|intros [A B]; auto]. Qed.
Lemma consume_args r : forall o ex p, consume (map (fun x => (IArg, x)) r) o ex = p -> (exists o', p = POptions o') \/ p = PUsage.
Proof.
  induction r as [|s r IH]; intros o ex p <-; cbn [map consume]; [destruct ex; eauto|]. apply (IH _ true _ eq_refl).
Qed.
Lemma consume_outcome E : forall m argv, (length argv <= m)%nat -> forall t o ex, classify_all E argv = Some t -> outcome_post E argv (consume t o ex).
Proof.
  induction m as [|m IH]; intros [|s r] L t o ex Ct; cbn [length] in L; try lia.
  1, 2: cbn [classify_all] in Ct; injection Ct as <-; cbn [consume]; destruct ex; exact I.
  apply classify_all_inv in Ct as [[-> ->]|(N & t' & Ct & ->)].
  { cbn [consume]. destruct (consume_args r o true _ eq_refl) as [[o' H]|H]; rewrite H; exact I. }
  assert (T : forall o ex, outcome_post E (s :: r) (consume t' o ex)) by (intros o1 ex1; apply (outcome_mono E r); [intros x Hx; right; exact Hx|apply IH; [lia|exact Ct]]).
  pose proof (classify_is E s) as K. destruct (classify E s) as [| | |k e| |]; cbn [consume]; try apply T.
  - cbn [classify_post] in K.
    assert (T2 : forall (f : pystr -> options), outcome_post E (s :: r) (match t' with (IArg, v) :: r' => consume r' (f v) ex | _ => PUsage end)).
    { intros f. destruct t' as [|[[| | | | |] v] t'']; try exact I. destruct r as [|v' r]; [discriminate|].
      apply classify_all_inv in Ct as [[_ Q]|(N' & t3 & Ct & Q)]; [discriminate|]. assert (t'' = t3) as -> by congruence.
      apply (outcome_mono E r); [intros x Hx; right; right; exact Hx|]. apply IH; [cbn [length] in L; lia|exact Ct]. }
    destruct k, e as [v|]; cbn [consume]; try exact I; try apply T; try (apply (T2 (fun v => _))).
    + exists s. split; [left; reflexivity|]. destruct K as [(-> & _)|(n & w & Iw & M & ->)]; [left; reflexivity|right].
      assert (w = str "help") as ->; [cbn [words In] in Iw; intuition congruence|exact M].
    + exists s. split; [left; reflexivity|]. destruct K as [(_ & K & _)|(n & w & Iw & M & ->)]; [discriminate|].
      assert (w = str "version") as ->; [cbn [words In] in Iw; intuition congruence|exact M].
  - split; [left; reflexivity|exact K].
Qed.
