(** * P_Args: the command line of np-utils (C118) *)
From Coq Require Import String Lia.
From Verif Require Import M_Py M_Hash M_UInt M_Base58 M_Helper M_ECCurve M_KeyPair M_Cli M_Args S_IO S_UInt S_EC S_Address S_KeyPair S_Cli S_Args
  L_Bytes L_Hex L_UInt L_Address P_Address P_KeyPair P_Cli L_Args.

(** ** C118 np-utils does what its command line says, or nothing *)
(** Which command lines set options, and which values main() gets. *)
Theorem C118_accepted : forall E H L rs random argv l, command_line E argv l ->
  np_utils E H L rs random argv = main H L rs random (options_of argv l).
Proof.
  intros E H L rs rnd argv l C. unfold np_utils. rewrite (proj2 (parse_accepted E argv (options_of argv l))); [reflexivity|]. exists l. auto.
Qed.
Print Assumptions C118_accepted.
(** The reading is unambiguous. *)
Theorem C118_one_reading : forall E argv l l', command_line E argv l -> command_line E argv l' -> l = l'.
Proof.
  intros E argv l l' C. revert l'. assert (D : forall n n' w w' e e' o o', In (o, w) words -> In (o', w') words -> means n w -> means n' w' -> with_value n e = with_value n' e' -> o = o' /\ e = e').
  { intros n n' w w' e e' o o' I I' M M' Q. pose proof (classify_option E n o w e I M) as A. pose proof (classify_option E n' o' w' e' I' M') as B. rewrite Q in A. split; congruence. }
  pose proof in_address as Ia. pose proof in_scripthash as Is. pose proof in_wallet as Iw.
  induction C as [|n v r l M A C IH|n v r l M C IH|n v r l M A C IH|n v r l M C IH|n r l M C IH]; intros l' C'.
  - inversion C'. reflexivity.
  - inversion C' as [|n' v' r' k M' A' C1|n' v' r' k M' C1 Q|n' v' r' k M' A' C1|n' v' r' k M' C1 Q|n' r' k M' C1]; subst.
    + f_equal. apply IH, C1.
    + destruct (D _ _ _ _ None (Some v') _ _ Ia Ia M M' eq_refl) as [_ X]. discriminate.
    + destruct (D _ _ _ _ None None _ _ Ia Is M M' eq_refl) as [X _]. discriminate.
    + destruct (D _ _ _ _ None (Some v') _ _ Ia Is M M' eq_refl) as [_ X]. discriminate.
    + destruct (D _ _ _ _ None None _ _ Ia Iw M M' eq_refl) as [X _]. discriminate.
  - inversion C' as [|n' v' r' k M' A' C1 Q|n' v' r' k M' C1 Q|n' v' r' k M' A' C1 Q|n' v' r' k M' C1 Q|n' r' k M' C1 Q]; subst.
    + destruct (D _ _ _ _ (Some v) None _ _ Ia Ia M M' eq_refl) as [_ X]. discriminate.
    + destruct (D _ _ _ _ (Some v) (Some v') _ _ Ia Ia M M' (eq_sym Q)) as [_ X]. f_equal; [congruence|apply IH, C1].
    + destruct (D _ _ _ _ (Some v) None _ _ Ia Is M M' eq_refl) as [_ X]. discriminate.
    + destruct (D _ _ _ _ (Some v) (Some v') _ _ Ia Is M M' (eq_sym Q)) as [X _]. discriminate.
    + destruct (D _ _ _ _ (Some v) None _ _ Ia Iw M M' eq_refl) as [X _]. discriminate.
  - inversion C' as [|n' v' r' k M' A' C1|n' v' r' k M' C1 Q|n' v' r' k M' A' C1|n' v' r' k M' C1 Q|n' r' k M' C1]; subst.
    + destruct (D _ _ _ _ None None _ _ Is Ia M M' eq_refl) as [X _]. discriminate.
    + destruct (D _ _ _ _ None (Some v') _ _ Is Ia M M' eq_refl) as [_ X]. discriminate.
    + f_equal. apply IH, C1.
    + destruct (D _ _ _ _ None (Some v') _ _ Is Is M M' eq_refl) as [_ X]. discriminate.
    + destruct (D _ _ _ _ None None _ _ Is Iw M M' eq_refl) as [X _]. discriminate.
  - inversion C' as [|n' v' r' k M' A' C1 Q|n' v' r' k M' C1 Q|n' v' r' k M' A' C1 Q|n' v' r' k M' C1 Q|n' r' k M' C1 Q]; subst.
    + destruct (D _ _ _ _ (Some v) None _ _ Is Ia M M' eq_refl) as [_ X]. discriminate.
    + destruct (D _ _ _ _ (Some v) (Some v') _ _ Is Ia M M' (eq_sym Q)) as [X _]. discriminate.
    + destruct (D _ _ _ _ (Some v) None _ _ Is Is M M' eq_refl) as [_ X]. discriminate.
    + destruct (D _ _ _ _ (Some v) (Some v') _ _ Is Is M M' (eq_sym Q)) as [_ X]. f_equal; [congruence|apply IH, C1].
    + destruct (D _ _ _ _ (Some v) None _ _ Is Iw M M' eq_refl) as [X _]. discriminate.
  - inversion C' as [|n' v' r' k M' A' C1|n' v' r' k M' C1 Q|n' v' r' k M' A' C1|n' v' r' k M' C1 Q|n' r' k M' C1]; subst.
    + destruct (D _ _ _ _ None None _ _ Iw Ia M M' eq_refl) as [X _]. discriminate.
    + destruct (D _ _ _ _ None (Some v') _ _ Iw Ia M M' eq_refl) as [_ X]. discriminate.
    + destruct (D _ _ _ _ None None _ _ Iw Is M M' eq_refl) as [X _]. discriminate.
    + destruct (D _ _ _ _ None (Some v') _ _ Iw Is M M' eq_refl) as [_ X]. discriminate.
    + f_equal. apply IH, C1.
Qed.
Print Assumptions C118_one_reading.
(** Any other command line does nothing: the help, the version, or a usage error with status 2, and
    the first two only if one of the arguments asks for it. *)
Theorem C118_nothing_else : forall E H L rs random argv, (forall l, ~ command_line E argv l) ->
  np_utils E H L rs random argv = ([], Exit 2) \/
  (np_utils E H L rs random argv = (help_lines E, Exit 0) /\ exists s, In s argv /\ asks_help s) \/
  (np_utils E H L rs random argv = ([str "neocore v0.5.7-dev"], Exit 0) /\ exists s, In s argv /\ asks_version s) \/
  (exists r, r <> [] /\ In (str "-h" ++ r) argv /\ np_utils E H L rs random argv = after_h E (str "-h" ++ r)).
Proof.
  intros E H L rs rnd argv N. unfold np_utils. destruct (parse_args E argv) as [o| | | |s] eqn:P; auto.
  - apply parse_accepted in P as (l & C & _). destruct (N l C).
  - right; left. split; [reflexivity|]. unfold parse_args in P. destruct (classify_all E argv) as [t|] eqn:Ct; [|discriminate].
    pose proof (consume_outcome E _ argv (le_n _) t (mkOptions (match argv with [] => false | _ => true end) None None false) false Ct) as Q. rewrite P in Q. exact Q.
  - right; right; left. split; [reflexivity|]. unfold parse_args in P. destruct (classify_all E argv) as [t|] eqn:Ct; [|discriminate].
    pose proof (consume_outcome E _ argv (le_n _) t (mkOptions (match argv with [] => false | _ => true end) None None false) false Ct) as Q. rewrite P in Q. exact Q.
  - right; right; right. unfold parse_args in P. destruct (classify_all E argv) as [t|] eqn:Ct; [|discriminate].
    pose proof (consume_outcome E _ argv (le_n _) t (mkOptions (match argv with [] => false | _ => true end) None None false) false Ct) as Q. rewrite P in Q.
    cbn [outcome_post] in Q. destruct Q as [I (r & -> & Nr)]. exists r. auto.
Qed.
Print Assumptions C118_nothing_else.
(** so a typing error without -h and --version is a usage error *)
Theorem C118_usage_error : forall E H L rs random argv, (forall l, ~ command_line E argv l) ->
  (forall s, In s argv -> ~ asks_help s /\ ~ asks_version s /\ forall r, s <> str "-h" ++ r) ->
  np_utils E H L rs random argv = ([], Exit 2).
Proof.
  intros E H L rs rnd argv N A. destruct (C118_nothing_else E H L rs rnd argv N) as [Q|[(_ & s & I & Q)|[(_ & s & I & Q)|(r & _ & I & _)]]]; [exact Q| | |].
  - destruct (A s I) as [B _]. contradiction.
  - destruct (A s I) as (_ & B & _). contradiction.
  - destruct (A _ I) as (_ & _ & B). destruct (B r eq_refl).
Qed.
Print Assumptions C118_usage_error.
(** -h, --help and --version after a good beginning win over everything that follows, unless an
    argument begins with --= *)
Theorem C118_help : forall E H L rs random pre l s post, command_line E pre l -> (forall x r, In x post -> x <> str "--=" ++ r) ->
  (asks_help s -> np_utils E H L rs random (pre ++ s :: post) = (help_lines E, Exit 0)) /\
  (asks_version s -> np_utils E H L rs random (pre ++ s :: post) = ([str "neocore v0.5.7-dev"], Exit 0)).
Proof.
  intros E H L rs rnd pre l s post C A.
  destruct (classify_all_some E post) as [t Ct]; [intros x Hx (r & ->); exact (A _ r Hx eq_refl)|].
  assert (G : forall o, s <> str "--" -> classify E s = IOpt o None -> exists t', classify_all E (pre ++ s :: post) = Some t' /\
     forall oo, consume t' oo false = consume ((IOpt o None, s) :: t) (fold_left apply_setting l oo) false).
  { intros o N Cs. apply (consume_prefix E pre l C). rewrite classify_all_cons, Cs, Ct; [reflexivity|exact N|rewrite Cs; discriminate]. }
  split; intros Q; unfold np_utils, parse_args.
  - assert (Cs : classify E s = IOpt OHelp None) by (destruct Q as [->|Q]; [reflexivity|exact (classify_option E s _ _ None in_help Q)]).
    assert (N : s <> str "--") by (intros ->; destruct Q as [Q|(r & _ & Ln)]; [discriminate|cbn in Ln; lia]).
    destruct (G OHelp N Cs) as (t' & Ct' & F). rewrite Ct', F. reflexivity.
  - assert (Cs : classify E s = IOpt OVersion None) by exact (classify_option E s _ _ None in_version Q).
    assert (N : s <> str "--") by (intros ->; destruct Q as (r & _ & Ln); cbn in Ln; lia).
    destruct (G OVersion N Cs) as (t' & Ct' & F). rewrite Ct', F. reflexivity.
Qed.
Print Assumptions C118_help.
(** The usual command lines: one option, its name in full or abbreviated, with a value that does not
    begin with a dash or is attached with =, and --create-wallet. *)
Theorem C118_one_option : forall E H L rs random n v,
  (means n (str "address-to-scripthash") ->
    ((forall r, v <> str "-" ++ r) -> np_utils E H L rs random [n; v] = main H L rs random (just_address v)) /\
    np_utils E H L rs random [n ++ str "=" ++ v] = main H L rs random (just_address v)) /\
  (means n (str "scripthash-to-address") ->
    ((forall r, v <> str "-" ++ r) -> np_utils E H L rs random [n; v] = main H L rs random (just_scripthash v)) /\
    np_utils E H L rs random [n ++ str "=" ++ v] = main H L rs random (just_scripthash v)) /\
  (means n (str "create-wallet") -> np_utils E H L rs random [n] = main H L rs random just_wallet) /\
  np_utils E H L rs random [] = ([], Exit 1).
Proof.
  intros E H L rs rnd n v. split; [|split; [|split]].
  - intros M. split; [intros A; rewrite (C118_accepted E H L rs rnd _ [Address v]); [reflexivity|apply cl_address; [exact M|left; exact A|constructor]]|].
    change (str "=" ++ v) with (61 :: v). rewrite (C118_accepted E H L rs rnd _ [Address v]); [reflexivity|apply cl_address_eq; [exact M|constructor]].
  - intros M. split; [intros A; rewrite (C118_accepted E H L rs rnd _ [Scripthash v]); [reflexivity|apply cl_scripthash; [exact M|left; exact A|constructor]]|].
    change (str "=" ++ v) with (61 :: v). rewrite (C118_accepted E H L rs rnd _ [Scripthash v]); [reflexivity|apply cl_scripthash_eq; [exact M|constructor]].
  - intros M. rewrite (C118_accepted E H L rs rnd _ [Wallet]); [reflexivity|apply cl_wallet; [exact M|constructor]].
  - rewrite (C118_accepted E H L rs rnd _ []); [reflexivity|constructor].
Qed.
Print Assumptions C118_one_option.
Lemma b58_no_dash d t r : B58 d t -> t <> str "-" ++ r.
Proof.
  intros (k & w & ds & _ & _ & -> & _ & F & _) Q. destruct k as [|k]; [|discriminate]. destruct ds as [|x ds]; [discriminate|]. cbn [repeat app map] in Q.
  inversion F as [|? ? Hx _]; subst. assert (C : b58_char x = 45) by (change (str "-" ++ r) with (45 :: r) in Q; congruence).
  assert (I : In (b58_char x) b58_chars) by (apply nth_In; change (List.length b58_chars) with 58%nat; lia). rewrite C in I. vm_compute in I. intuition discriminate.
Qed.
(** From the shell: the script hash of an address, and back *)
Theorem C118_address_and_back : forall E H L rs random a t h n n', hash_ok H -> Forall (fun c => 0 <= c) a -> trimmed white rs a t ->
  B58Check H (x17 :: h) t -> length h = 20%nat -> means n (str "address-to-scripthash") -> means n' (str "scripthash-to-address") ->
  exists big little l3 d1 d2,
    np_utils E H L rs random [n; a] = ([str "Scripthash big endian:  " ++ big; str "Scripthash little endian: " ++ little; l3], EndOfMain) /\
    np_utils E H L rs random [n'; big] = ([t], EndOfMain) /\
    np_utils E H L rs random [n'; little] = ([d1; d2; t], EndOfMain).
Proof.
  intros E H L rs rnd a t h n n' O P T B Lh M M'. destruct (C84_address H L rs rnd a t (x17 :: h) h O P T B eq_refl) as (lit & _ & R).
  exists (str "0x" ++ hex (rev h)), (hex h). eexists _, _, _.
  destruct (C84_scripthash H L rs rnd (hex (rev h)) h Lh) as (a1 & B1 & M1 & _). destruct (C84_scripthash H L rs rnd (hex h) h Lh) as (a2 & B2 & _ & M2).
  assert (a1 = t) as -> by (apply (C47_relation_is_one_to_one _ _ _ _ B1 B); reflexivity). assert (a2 = t) as -> by (apply (C47_relation_is_one_to_one _ _ _ _ B2 B); reflexivity).
  split; [|split].
  - rewrite (proj1 (proj1 (C118_one_option E H L rs rnd n a) M)); [exact R|]. intros r Q. unfold trimmed in T. destruct rs; [|subst t; exact (b58_no_dash _ _ r B Q)].
    destruct T as (tail & -> & W & _). destruct t as [|c t].
    + destruct tail as [|c tail]; [discriminate|]. inversion W as [|? ? Wc _]; subst. cbn in Q. assert (c = 45) as -> by congruence.
      unfold white in Wc. cbn [In] in Wc. lia.
    + apply (b58_no_dash _ _ t B). cbn in Q |- *. congruence.
  - rewrite (proj1 (proj1 (proj2 (C118_one_option E H L rs rnd n' _)) M')); [apply M1, hex_denotes_hex|]. intros r Q. discriminate.
  - rewrite (proj1 (proj1 (proj2 (C118_one_option E H L rs rnd n' _)) M')); [apply M2, hex_denotes_hex|]. intros r Q.
    assert (F := hex_lower_digits h). rewrite Q in F. inversion F as [|? ? D _]; subst. assert (D' : lower_hex_digit 45) by exact D. unfold lower_hex_digit in D'. lia.
Qed.
Print Assumptions C118_address_and_back.
Example C118_example :
  let E := mkArgenv (fun s => existsb (Z.eqb 53) s) [str "usage: np-utils"] (fun _ => ([], Exit 2)) in
  let a := str "AXjaFSP23Jkbe6Pk9pPGT6NBDs1HVdqaXK" in
  (* abbreviations, repetition, = and separate values *)
  command_line E [str "--a"; str "x"; str "--create"; str "--script=-1"; str "--address-to-scripthash"; a; str "--s"; str "-5"]
    [Address (str "x"); Wallet; Scripthash (str "-1"); Address a; Scripthash (str "-5")] /\
  parse_args E [str "--a"; str "x"; str "--create"; str "--script=-1"; str "--address-to-scripthash"; a; str "--s"; str "-5"] =
    POptions (mkOptions true (Some a) (Some (str "-5")) true) /\
  (* a forgotten dash, a missing value, a value for --create-wallet, an unknown option *)
  map (parse_args E) [[str "-address-to-scripthash"; a]; [str "--address-to-scripthash"]; [str "--create-wallet=yes"]; [str "--wallet"]; [a]; [str "--"; str "--create-wallet"]] =
    [PUsage; PUsage; PUsage; PUsage; PUsage; PUsage] /\
  map (parse_args E) [[str "-h"]; [str "--wrong"; str "--he"]; [str "--create-wallet"; str "--v"; str "--wrong"]; [str "-hello"]; [str "-h"; str "--=x"]] =
    [PHelp; PHelp; PVersion; PShort (str "-hello"); PUsage].
Proof.
  assert (Mn : forall n w r, n ++ r = str "--" ++ w -> (2 < List.length n)%nat -> means n w) by (intros n w r A B; exists r; auto).
  split; [|vm_compute; auto].
  apply (cl_address _ (str "--a")); [apply (Mn _ _ (str "ddress-to-scripthash")); [reflexivity|cbn; lia]|left; discriminate|].
  apply cl_wallet; [apply (Mn _ _ (str "-wallet")); [reflexivity|cbn; lia]|].
  apply (cl_scripthash_eq _ (str "--script") (str "-1")); [apply (Mn _ _ (str "hash-to-address")); [reflexivity|cbn; lia]|].
  apply cl_address; [apply (Mn _ _ []); [reflexivity|cbn; lia]|left; discriminate|].
  apply cl_scripthash; [apply (Mn _ _ (str "cripthash-to-address")); [reflexivity|cbn; lia]| |apply cl_nil].
  right; right. split; [left; reflexivity|]. intros K. apply like_cases in K. destruct K; discriminate.
Qed.
