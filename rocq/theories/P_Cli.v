(** * P_Cli: the command np-utils (C84) *)
From Coq Require Import String Lia.
From Verif Require Import M_Py M_Hash M_UInt M_Base58 M_Helper M_ECCurve M_KeyPair M_Cli S_IO S_UInt S_EC S_Address S_KeyPair S_Cli
  L_Bytes L_Hex L_UInt L_Base58 L_Address P_Address P_KeyPair.

(** only one of the options given *)
Definition just_address (a : pystr) : options := mkOptions true (Some a) None false.
Definition just_scripthash (s : pystr) : options := mkOptions true None (Some s) false.
Definition just_wallet : options := mkOptions true None None true.

(** ** bytes literals *)
Lemma hexdigit_lower d : 0 <= d < 16 -> lower (hexdigit d) = hexdigit d.
Proof. intros H. unfold lower, hexdigit. destruct (d <? 10) eqn:E; destruct (_ && _) eqn:F; lia. Qed.
Lemma repr_byte_lit q x r b : q = 39 \/ q = 34 -> literal_body q r b -> literal_body q (repr_byte q x ++ r) (x :: b).
Proof.
  intros Q L. pose proof (b2z_range x) as R. unfold repr_byte.
  assert (Inv : forall y, b2z x = b2z y -> x = y) by (intros y E; rewrite <- (z2b_b2z x), <- (z2b_b2z y), E; reflexivity).
  destruct ((b2z x =? q) || (b2z x =? 92)) eqn:E1.
  { apply (lit_escaped q x r b); [|exact L]. assert (C : b2z x = 92 \/ b2z x = 39 \/ b2z x = 34) by lia. cbn [In].
    destruct C as [C|[C|C]]; [left; symmetry; apply Inv; exact C|right; left; symmetry; apply Inv; exact C|right; right; left; symmetry; apply Inv; exact C]. }
  destruct (Z.eqb_spec (b2z x) 9) as [E|]; [rewrite (Inv x09 E); apply (lit_tab q r b L)|].
  destruct (Z.eqb_spec (b2z x) 10) as [E|]; [rewrite (Inv x0a E); apply (lit_newline q r b L)|].
  destruct (Z.eqb_spec (b2z x) 13) as [E|]; [rewrite (Inv x0d E); apply (lit_return q r b L)|].
  destruct ((b2z x <? 32) || (127 <=? b2z x)) eqn:E2.
  - apply (lit_hex q [hexdigit (b2z x / 16); hexdigit (b2z x mod 16)] x r b); [|exact L].
    unfold hex_denotes. cbn [map hex]. pose proof (Z.mod_pos_bound (b2z x) 16 ltac:(lia)).
    assert (0 <= b2z x / 16 < 16) by (split; [apply Z.div_pos; lia|apply Z.div_lt_upper_bound; lia]). rewrite !hexdigit_lower by lia. reflexivity.
  - apply (lit_plain q x r b); (lia || exact L).
Qed.
(** the third line printed for a script hash is a Python literal of it *)
Theorem C84_repr : forall b, bytes_literal (bytes_repr b) b.
Proof.
  intros b. exists (repr_quote b), (concat (map (repr_byte (repr_quote b)) b)). split; [unfold repr_quote; destruct (_ && _); auto|]. split; [reflexivity|].
  generalize (repr_quote b) as q, (ltac:(unfold repr_quote; destruct (_ && _); auto) : repr_quote b = 39 \/ repr_quote b = 34). intros q Q.
  induction b as [|x b IH]; [constructor|]. cbn [map concat]. apply repr_byte_lit; [exact Q|exact IH].
Qed.
Print Assumptions C84_repr.

Lemma hex_denotes_two d x : hex_denotes d [x] -> exists c1 c2, d = [c1; c2].
Proof. unfold hex_denotes. intros E. destruct d as [|c1 [|c2 [|c3 d]]]; cbn in E; try discriminate. eauto. Qed.
Lemma hexdigit_inj a b : 0 <= a < 16 -> 0 <= b < 16 -> hexdigit a = hexdigit b -> a = b.
Proof. unfold hexdigit. intros A B. destruct (a <? 10) eqn:E, (b <? 10) eqn:F; lia. Qed.
Lemma hex_denotes_fun d x y : hex_denotes d [x] -> hex_denotes d [y] -> x = y.
Proof.
  unfold hex_denotes. intros A B. rewrite A in B. cbn [hex] in B. pose proof (b2z_range x). pose proof (b2z_range y).
  assert (E1 : hexdigit (b2z x / 16) = hexdigit (b2z y / 16)) by congruence. assert (E2 : hexdigit (b2z x mod 16) = hexdigit (b2z y mod 16)) by congruence.
  apply hexdigit_inj in E1; [|lia..]. apply hexdigit_inj in E2; [|lia..]. apply b2z_inj. lia.
Qed.
Lemma str_t : str "\t" = [92; 116]. Proof. reflexivity. Qed.
Lemma str_n : str "\n" = [92; 110]. Proof. reflexivity. Qed.
Lemma str_r : str "\r" = [92; 114]. Proof. reflexivity. Qed.
Lemma str_x : str "\x" = [92; 120]. Proof. reflexivity. Qed.
Lemma quoted_codes x : In x [x5c; x27; x22] -> b2z x = 92 \/ b2z x = 39 \/ b2z x = 34.
Proof. cbn [In]. intros [<-|[<-|[<-|[]]]]; [left|right; left|right; right]; reflexivity. Qed.
Lemma literal_fun q r b b' : literal_body q r b -> literal_body q r b' -> b = b'.
Proof.
  intros L. revert b'. induction L as [|x r b R Q N L IH|x r b I L IH|r b L IH|r b L IH|r b L IH|d x r b D L IH]; intros b' M;
    rewrite ?str_t, ?str_n, ?str_r, ?str_x in M;
    match type of M with literal_body _ ?s _ => remember s as s0 eqn:Es end;
    destruct M as [|x' r' b' R' Q' N' M|x' r' b' I' M|r' b' M|r' b' M|r' b' M|d' x' r' b' D' M];
    rewrite ?str_t, ?str_n, ?str_r, ?str_x in Es; cbn [app] in Es; try discriminate Es;
    try (apply quoted_codes in I); try (apply quoted_codes in I');
    try reflexivity; try (exfalso; first [assert (b2z x = 92) by congruence | assert (b2z x' = 92) by congruence]; congruence);
    try (exfalso; first [assert (X : b2z x' = b2z x) by congruence| idtac]; injection Es as Ea Eb; lia).
  - f_equal; [apply b2z_inj; congruence|apply IH; assert (r = r') as -> by congruence; exact M].
  - f_equal; [apply b2z_inj; congruence|apply IH; assert (r = r') as -> by congruence; exact M].
  - f_equal; apply IH; assert (r = r') as -> by congruence; exact M.
  - f_equal; apply IH; assert (r = r') as -> by congruence; exact M.
  - f_equal; apply IH; assert (r = r') as -> by congruence; exact M.
  - destruct (hex_denotes_two _ _ D) as (c1 & c2 & ->). destruct (hex_denotes_two _ _ D') as (c1' & c2' & ->). cbn [app] in Es.
    assert (c1 = c1' /\ c2 = c2' /\ r = r') as (<- & <- & <-) by (repeat split; congruence).
    f_equal; [eapply hex_denotes_fun; eassumption|apply IH, M].
Qed.
(** and of nothing else *)
Theorem C84_literal_unique : forall s b b', bytes_literal s b -> bytes_literal s b' -> b = b'.
Proof.
  intros s b b' (q & t & Q & -> & L) (q' & t' & Q' & E & L'). cbn [app] in E. assert (q = q') as <- by congruence.
  assert (t ++ [q] = t' ++ [q]) as T by congruence. apply app_inv_tail in T. subst t'. eapply literal_fun; eassumption.
Qed.
Print Assumptions C84_literal_unique.

(** in single quotes, except that text with single and no double quotes is in double quotes *)
Theorem C84_quote : forall b, exists q body, bytes_repr b = [98; q] ++ body ++ [q] /\
  ((In x27 b /\ ~ In x22 b) -> q = 34) /\ (~ (In x27 b /\ ~ In x22 b) -> q = 39).
Proof.
  intros b. exists (repr_quote b), (concat (map (repr_byte (repr_quote b)) b)). split; [reflexivity|].
  assert (forall c k, b2z c = k -> (existsb (fun x => b2z x =? k) b = true <-> In c b)) as Hx.
  { intros c k Hc. rewrite existsb_exists. split.
    - intros (x & Hi & E). apply Z.eqb_eq in E. rewrite <- Hc in E. apply b2z_inj in E. subst x. exact Hi.
    - intros Hi. exists c. split; [exact Hi|apply Z.eqb_eq; exact Hc]. }
  pose proof (Hx x27 39 eq_refl) as H1. pose proof (Hx x22 34 eq_refl) as H2. unfold repr_quote.
  destruct (existsb _ b) eqn:E1; destruct (existsb (fun c => b2z c =? 34) b) eqn:E2; cbn [negb andb]; split; intros N; try reflexivity;
    exfalso; intuition congruence.
Qed.
Print Assumptions C84_quote.

(** and there is no shorter literal with these quotes *)
Lemma repr_byte_short q x r b : literal_body q r (x :: b) -> exists r1 r2, r = r1 ++ r2 /\ literal_body q r2 b /\ (length (repr_byte q x) <= length r1)%nat.
Proof.
  intros L. remember (x :: b) as xb eqn:E. destruct L as [|y r b' R Q N L|y r b' I L|r b' L|r b' L|r b' L|d y r b' D L]; [discriminate|..];
    rewrite ?str_t, ?str_n, ?str_r, ?str_x;
    [assert (y = x) as -> by congruence|assert (y = x) as -> by congruence|assert (x = x09) as -> by congruence|assert (x = x0a) as -> by congruence|
     assert (x = x0d) as -> by congruence|assert (y = x) as -> by congruence]; assert (b' = b) as -> by congruence; clear E.
  - exists [b2z x], r. split; [reflexivity|]. split; [exact L|]. unfold repr_byte.
    replace ((b2z x =? q) || (b2z x =? 92)) with false by lia. replace (b2z x =? 9) with false by lia. replace (b2z x =? 10) with false by lia.
    replace (b2z x =? 13) with false by lia. replace ((b2z x <? 32) || (127 <=? b2z x)) with false by lia. cbn; lia.
  - exists [92; b2z x], r. split; [reflexivity|]. split; [exact L|]. apply quoted_codes in I. unfold repr_byte.
    destruct ((b2z x =? q) || (b2z x =? 92)); [cbn; lia|]. replace (b2z x =? 9) with false by lia. replace (b2z x =? 10) with false by lia.
    replace (b2z x =? 13) with false by lia. replace ((b2z x <? 32) || (127 <=? b2z x)) with false by lia. cbn; lia.
  - exists [92; 116], r. split; [reflexivity|]. split; [exact L|]. unfold repr_byte. change (b2z x09) with 9. destruct (_ || _); cbn; lia.
  - exists [92; 110], r. split; [reflexivity|]. split; [exact L|]. unfold repr_byte. change (b2z x0a) with 10. destruct (_ || _); cbn; lia.
  - exists [92; 114], r. split; [reflexivity|]. split; [exact L|]. unfold repr_byte. change (b2z x0d) with 13. destruct (_ || _); cbn; lia.
  - destruct (hex_denotes_two _ _ D) as (c1 & c2 & ->). exists [92; 120; c1; c2], r. split; [reflexivity|]. split; [exact L|].
    unfold repr_byte. repeat (destruct (_ : bool); [cbn; lia|]). cbn; lia.
Qed.
Theorem C84_shortest : forall b q body body', bytes_repr b = [98; q] ++ body ++ [q] -> literal_body q body' b -> (length body <= length body')%nat.
Proof.
  intros b q body body' E L. unfold bytes_repr in E. assert (q = repr_quote b) as -> by (cbn [app] in E; congruence).
  assert (concat (map (repr_byte (repr_quote b)) b) = body) as <- by (apply (app_inv_tail [repr_quote b]); cbn [app] in E; congruence).
  clear E. revert L. generalize (repr_quote b) as q. intros q. revert body'. induction b as [|x b IH]; intros t L; [cbn; lia|]. cbn [map concat].
  destruct (repr_byte_short _ _ _ _ L) as (r1 & r2 & -> & L2 & H). rewrite !app_length. specialize (IH _ L2). lia.
Qed.
Print Assumptions C84_shortest.

(** ** --address-to-scripthash *)
Lemma main_address H L rs rnd a : main H L rs rnd (just_address a) =
  (fst (address_part H rs (Some a)), match snd (address_part H rs (Some a)) with Some e => e | None => EndOfMain end).
Proof.
  unfold main, just_address. cbn [o_any negb o_address_to_scripthash o_scripthash_to_address o_create_wallet scripthash_part wallet_part and_then].
  destruct (address_part H rs (Some a)) as [l [e|]]; cbn [and_then fst snd app]; [reflexivity|]. rewrite app_nil_r. reflexivity.
Qed.
(** Base58Check text: its bytes between the version and the checksum, in three forms *)
Theorem C84_address : forall H L rs random a t p h, hash_ok H -> Forall (fun c => 0 <= c) a ->
  trimmed white rs a t -> B58Check H p t -> h = skipn 1 p ->
  exists literal, bytes_literal literal h /\ main H L rs random (just_address a) =
    ([str "Scripthash big endian:  0x" ++ hex (rev h); str "Scripthash little endian: " ++ hex h;
      str "Scripthash neo-python format: " ++ literal], EndOfMain).
Proof.
  intros H L rs rnd a t p h O P T B Eh. exists (bytes_repr h). split; [apply C84_repr|]. rewrite main_address. cbn [address_part].
  assert (cli_address_to_scripthash H rs a = Ok h) as -> by (apply C49_accepts; [exact O|exact P|]; exists t, p; auto). reflexivity.
Qed.
Print Assumptions C84_address.
(** any other text that decodes to at least one byte: one line, status 1 *)
Theorem C84_bad_checksum : forall H L rs random a d, hash_ok H -> b58decode rs (VStr a) = Ok d -> d <> [] -> (forall p, d <> p ++ checksum H p) ->
  main H L rs random (just_address a) = ([str "Invalid address: invalid checksum"], Exit 1).
Proof.
  intros H L rs rnd a d O D N C. rewrite main_address. cbn [address_part]. destruct (cli_address_to_scripthash H rs a) as [h|e] eqn:E.
  - exfalso. unfold cli_address_to_scripthash in E. rewrite D in E. cbn [rbind] in E. destruct d as [|x r]; [congruence|].
    destruct (list_eq_dec _ _ _) as [Y|]; [|discriminate]. apply (split_checksum H _ O) in Y. destruct Y as [p Y]. exact (C p Y).
  - apply C49_failures in E; [|exact O]. destruct E as [(-> & _)|[(-> & D')|(_ & D')]]; [reflexivity|exfalso; congruence|congruence].
Qed.
Print Assumptions C84_bad_checksum.
(** and text that does not: nothing printed, an exception nobody handles *)
Theorem C84_not_base58 : forall H L rs random a, hash_ok H ->
  (b58decode rs (VStr a) = Ok [] \/ exists e, b58decode rs (VStr a) = Raise e) ->
  exists e, main H L rs random (just_address a) = ([], Uncaught e) /\ In e [IndexError; ValueError; UnicodeError].
Proof.
  intros H L rs rnd a O D. rewrite main_address. cbn [address_part]. unfold cli_address_to_scripthash. destruct (decode_str_fail rs a) as [[d X]|(x & X & [-> | ->])]; rewrite X in *; cbn [rbind].
  - destruct D as [D|[e D]]; [|discriminate]. assert (d = []) as -> by congruence. exists IndexError. cbn. auto.
  - exists ValueError. cbn. auto.
  - exists UnicodeError. cbn. auto.
Qed.
Print Assumptions C84_not_base58.

(** ** --scripthash-to-address *)
Lemma main_scripthash H L rs rnd s : main H L rs rnd (just_scripthash s) =
  (fst (scripthash_part H (Some s)), match snd (scripthash_part H (Some s)) with Some e => e | None => EndOfMain end).
Proof.
  unfold main, just_scripthash. cbn [o_any negb o_address_to_scripthash o_scripthash_to_address o_create_wallet address_part wallet_part and_then].
  destruct (scripthash_part H (Some s)) as [l [e|]]; cbn [and_then fst snd app]; [reflexivity|]. rewrite app_nil_r. reflexivity.
Qed.
(** 20 bytes in hexadecimal, big-endian after 0x or little-endian without: the address *)
Theorem C84_scripthash : forall H L rs random t h, length h = 20%nat -> exists a, B58Check H (x17 :: h) a /\
  (hex_denotes t (rev h) -> main H L rs random (just_scripthash (str "0x" ++ t)) = ([a], EndOfMain)) /\
  (hex_denotes t h -> main H L rs random (just_scripthash t) =
     ([str "Detected little endian scripthash. Converting to big endian for internal use.";
       str "Big endian scripthash: 0x" ++ hex (rev h); a], EndOfMain)).
Proof.
  intros H L rs rnd t h Lh. destruct (C72_value H t h Lh) as (a & B & C1 & C2). exists a. split; [exact B|]. split; intros D; rewrite main_scripthash; cbn [scripthash_part].
  - rewrite (C1 D). reflexivity.
  - rewrite (C2 D). unfold conversion_lines. destruct (list_eq_dec _ _ _) as [E|_].
    + exfalso. assert (F : Forall hex_digit_code t) by apply (hex_denotes_text _ _ D). destruct t as [|c0 [|c1 t]]; cbn [firstn] in E; try discriminate.
      assert (c1 = 120) as -> by (change (str "0x") with [48; 120] in E; congruence). apply Forall_inv_tail, Forall_inv in F. unfold hex_digit_code in F. lia.
    + unfold unhexlify. rewrite (hex_text_ascii _ (hex_denotes_text _ _ D)), (proj2 (unhex_denotes _ _) D). reflexivity.
Qed.
Print Assumptions C84_scripthash.
(** any other text: the last line is the message, status 1 *)
Theorem C84_scripthash_rejected : forall H L rs random s,
  (forall t, (s = str "0x" ++ t \/ s = t) -> length t = 40%nat -> ~ Forall hex_char t) ->
  exists l, main H L rs random (just_scripthash s) = (l ++ [str "Wrong format"], Exit 1) /\ (length l <= 2)%nat.
Proof.
  intros H L rs rnd s N. rewrite main_scripthash. cbn [scripthash_part]. destruct (cli_scripthash_to_address H s) as [a|e] eqn:E.
  - exfalso. destruct (proj1 (C72_accepts H s) (ex_intro _ a E)) as (t & T & Lt & F). exact (N t T Lt F).
  - apply C72_only_ConversionError in E. subst e. exists (conversion_lines s). split; [reflexivity|]. unfold conversion_lines. destruct (list_eq_dec _ _ _); [cbn; lia|]. destruct (unhexlify _); cbn; lia.
Qed.
Print Assumptions C84_scripthash_rejected.
(** what the first command prints for an address, given to the second, prints the address *)
Theorem C84_feedback : forall H L rs random a t h, hash_ok H -> Forall (fun c => 0 <= c) a -> trimmed white rs a t -> B58Check H (x17 :: h) t -> length h = 20%nat ->
  exists big little l3 d1 d2,
    main H L rs random (just_address a) = ([str "Scripthash big endian:  " ++ big; str "Scripthash little endian: " ++ little; l3], EndOfMain) /\
    main H L rs random (just_scripthash big) = ([t], EndOfMain) /\
    main H L rs random (just_scripthash little) = ([d1; d2; t], EndOfMain).
Proof.
  intros H L rs rnd a t h O P T B Lh. destruct (C84_address H L rs rnd a t (x17 :: h) h O P T B eq_refl) as (lit & _ & M).
  exists (str "0x" ++ hex (rev h)), (hex h). eexists _, _, _. split; [exact M|].
  destruct (C84_scripthash H L rs rnd (hex (rev h)) h Lh) as (a1 & B1 & M1 & _). destruct (C84_scripthash H L rs rnd (hex h) h Lh) as (a2 & B2 & _ & M2).
  assert (a1 = t) as -> by (apply (C47_relation_is_one_to_one _ _ _ _ B1 B); reflexivity). assert (a2 = t) as -> by (apply (C47_relation_is_one_to_one _ _ _ _ B2 B); reflexivity).
  split; [apply M1, hex_denotes_hex|apply M2, hex_denotes_hex].
Qed.
Print Assumptions C84_feedback.

(** ** --create-wallet *)
Lemma main_wallet H L rs rnd : main H L rs rnd just_wallet =
  (fst (wallet_part H L rnd true), match snd (wallet_part H L rnd true) with Some e => e | None => EndOfMain end).
Proof. unfold main, just_wallet. cbn [o_any negb o_address_to_scripthash o_scripthash_to_address o_create_wallet address_part scripthash_part and_then]. destruct (wallet_part H L rnd true); reflexivity. Qed.
(** a JSON object with the WIF text of the 32 random bytes and the address of their public key; importing the WIF gives the key back *)
Theorem C84_wallet : forall H L rs random f xb yb, hash_ok H -> length random = 32%nat ->
  privkey_to_pubkey L setup_curve random = Ok (f :: xb ++ yb) -> length xb = 32%nat -> length yb = 32%nat -> ~ at_infinity (num_be xb) (num_be yb) ->
  exists wif a, main H L rs random just_wallet =
    ([str "{"; str "  ""private_key"": """ ++ wif ++ str ""","; str "  ""address"": """ ++ a ++ str """"; str "}"], EndOfMain) /\
    WIF H random wif /\ key_address H (num_be xb) (num_be yb) a /\ PrivateKeyFromWIF H rs (VStr wif) = Ok random.
Proof.
  intros H L rs rnd f xb yb O Lr Pk Lx Ly I. destruct (C71_private H L (VBytes rnd) rnd f xb yb O (bytes_b rnd) Lr Pk Lx Ly) as (u & K & _).
  set (kp := mkKeyPair rnd (num_be xb, num_be yb) u) in *. destruct (C54_address H kp (num_be xb) (num_be yb) O eq_refl (r256 xb Lx) I) as (a & _ & _ & Ga & Ka & _).
  exists (Export H kp), a. split.
  - rewrite main_wallet. cbn [wallet_part]. unfold create_wallet. rewrite K. cbn [rbind]. rewrite Ga. reflexivity.
  - split; [apply (C51_export H kp O Lr)|]. split; [exact Ka|apply (C51_roundtrip H rs kp O Lr)].
Qed.
Print Assumptions C84_wallet.
(** otherwise nothing is printed *)
Theorem C84_wallet_fails : forall H L rs random, length random = 32%nat -> hash_ok H -> keylib_ok L ->
  (forall f xb yb, privkey_to_pubkey L setup_curve random = Ok (f :: xb ++ yb) -> length xb = 32%nat -> length yb = 32%nat -> at_infinity (num_be xb) (num_be yb)) ->
  exists e, main H L rs random just_wallet = ([], Uncaught e).
Proof.
  intros H L rs rnd Lr O K N. rewrite main_wallet. cbn [wallet_part]. unfold create_wallet. destruct (privkey_to_pubkey L setup_curve rnd) as [b|e] eqn:Pk.
  - pose proof (proj1 K _ _ _ Pk) as Lb. destruct b as [|f b]; [discriminate|]. cbn [length] in Lb. rewrite <- (firstn_skipn 32 b) in Pk, N.
    assert (Lx : length (firstn 32 b) = 32%nat) by (rewrite firstn_length; lia). assert (Ly : length (skipn 32 b) = 32%nat) by (rewrite skipn_length; lia).
    destruct (C71_private H L (VBytes rnd) rnd f _ _ O (bytes_b rnd) Lr Pk Lx Ly) as (u & Kp & _). rewrite Kp. cbn [rbind].
    rewrite (C54_infinity H (mkKeyPair rnd (num_be (firstn 32 b), num_be (skipn 32 b)) u) _ _ eq_refl (N _ _ _ eq_refl Lx Ly)). cbn. eauto.
  - rewrite (C71_private_fails H L (VBytes rnd) rnd e (bytes_b rnd) Lr Pk). cbn. eauto.
Qed.
Print Assumptions C84_wallet_fails.

(** ** several options *)
Theorem C84_no_arguments : forall H L rs random a s w, main H L rs random (mkOptions false a s w) = ([], Exit 1).
Proof. reflexivity. Qed.
Print Assumptions C84_no_arguments.
(** the options are served in this order, each as if alone, up to the first failure *)
Theorem C84_sequence : forall H L rs random a s (w : bool),
  one_after_another (map (main H L rs random)
    (match a with Some a => [just_address a] | None => [] end ++ match s with Some s => [just_scripthash s] | None => [] end ++ (if w then [just_wallet] else [])))
    (main H L rs random (mkOptions true a s w)).
Proof.
  intros H L rs rnd a s w. unfold main at 2. cbn [o_any negb o_address_to_scripthash o_scripthash_to_address o_create_wallet].
  assert (W : forall l y, wallet_part H L rnd w = (l, y) -> one_after_another (map (main H L rs rnd) (if w then [just_wallet] else [])) (l, match y with Some e => e | None => EndOfMain end)).
  { intros l y E. destruct w; [|assert (l = [] /\ y = None) as [-> ->] by (cbn in E; split; congruence); constructor].
    cbn [map]. rewrite main_wallet, E. cbn [fst snd]. assert (X : y = None \/ exists e, y = Some (Uncaught e)).
    { cbn [wallet_part] in E. destruct (create_wallet H L rnd) as [[k ad]|e]; [left; congruence|right; exists e; congruence]. }
    destruct X as [-> |[e ->]]; [rewrite <- (app_nil_r l) at 2; constructor; constructor|constructor; discriminate]. }
  assert (S : forall l y, and_then (scripthash_part H s) (wallet_part H L rnd w) = (l, y) ->
    one_after_another (map (main H L rs rnd) (match s with Some s => [just_scripthash s] | None => [] end ++ (if w then [just_wallet] else []))) (l, match y with Some e => e | None => EndOfMain end)).
  { intros l y E. destruct s as [s|]; [|cbn [scripthash_part and_then app] in E |- *; destruct (wallet_part H L rnd w) as [l' y'] eqn:Ew; cbn [app] in E; apply W; congruence].
    cbn [map app]. rewrite main_scripthash. assert (X : (exists m, scripthash_part H (Some s) = (m, None)) \/ exists m e, scripthash_part H (Some s) = (m, Some e) /\ e <> EndOfMain).
    { cbn [scripthash_part]. destruct (cli_scripthash_to_address H s) as [ad|e]; [left; eauto|]. right. destruct e; eexists _, _; (split; [reflexivity|discriminate]). }
    destruct X as [[m X]|(m & e & X & Ne)]; rewrite X in E |- *; cbn [and_then fst snd] in E |- *.
    - destruct (wallet_part H L rnd w) as [l' y'] eqn:Ew. assert (l = m ++ l') as -> by congruence. assert (y' = y) as <- by congruence. constructor. apply W. reflexivity.
    - assert (l = m) as -> by congruence. assert (y = Some e) as -> by congruence. constructor. exact Ne. }
  destruct (and_then (scripthash_part H s) (wallet_part H L rnd w)) as [l y] eqn:E. specialize (S l y eq_refl).
  destruct a as [a|]; [|cbn [address_part and_then app] in *; exact S].
  cbn [map app]. rewrite main_address. assert (X : (exists m, address_part H rs (Some a) = (m, None)) \/ exists m e, address_part H rs (Some a) = (m, Some e) /\ e <> EndOfMain).
  { cbn [address_part]. destruct (cli_address_to_scripthash H rs a) as [ad|e]; [left; eauto|]. right. destruct e; eexists _, _; (split; [reflexivity|discriminate]). }
  destruct X as [[m X]|(m & e & X & Ne)]; rewrite X; cbn [and_then fst snd]; [constructor; exact S|constructor; exact Ne].
Qed.
Print Assumptions C84_sequence.
(** the status is 0 exactly when main runs to its end, and 1 otherwise *)
Theorem C84_status : forall H L rs random o, let x := snd (main H L rs random o) in
  (exit_status x = 0 /\ x = EndOfMain) \/ (exit_status x = 1 /\ x <> EndOfMain).
Proof.
  intros H L rs rnd [[|] a s w]; [|right; split; [reflexivity|discriminate]]. unfold main. cbn [o_any negb o_address_to_scripthash o_scripthash_to_address o_create_wallet].
  assert (A : forall e, snd (address_part H rs a) = Some e -> exit_status e = 1 /\ e <> EndOfMain).
  { intros e. destruct a as [a|]; [|discriminate]. cbn [address_part]. destruct (cli_address_to_scripthash H rs a) as [|x]; [discriminate|]. destruct x; cbn [snd]; intros E; injection E as <-; split; (reflexivity || discriminate). }
  assert (B : forall e, snd (scripthash_part H s) = Some e -> exit_status e = 1 /\ e <> EndOfMain).
  { intros e. destruct s as [s|]; [|discriminate]. cbn [scripthash_part]. destruct (cli_scripthash_to_address H s) as [|x]; [discriminate|]. destruct x; cbn [snd]; intros E; injection E as <-; split; (reflexivity || discriminate). }
  assert (C : forall e, snd (wallet_part H L rnd w) = Some e -> exit_status e = 1 /\ e <> EndOfMain).
  { intros e. destruct w; [|discriminate]. cbn [wallet_part]. destruct (create_wallet H L rnd) as [[]|x]; [discriminate|]. cbn [snd]. intros E. assert (e = Uncaught x) as -> by congruence. split; [reflexivity|discriminate]. }
  destruct (address_part H rs a) as [l1 [e1|]]; cbn [and_then snd]; [right; apply A; reflexivity|].
  destruct (scripthash_part H s) as [l2 [e2|]]; cbn [and_then snd]; [right; apply B; reflexivity|].
  destruct (wallet_part H L rnd w) as [l3 [e3|]]; cbn [and_then snd]; [right; apply C; reflexivity|left; split; reflexivity].
Qed.
Print Assumptions C84_status.

(** a library that answers with one fixed public key *)
Definition example_lib : keylib := mkKeylib (fun _ _ => Ok (x04 :: repeat x00 31 ++ [x01] ++ repeat x00 31 ++ [x02])) (fun _ _ => repeat x00 64) (fun _ d => Ok d) (fun _ d => Ok d) (fun s => s).
Example C84_example :
  main real_hashes example_lib true (repeat x07 32) (mkOptions true (Some (str "AK2nJJpJr6o664CWJKi1QRXjqeic2zRp8y")) (Some (str "23BA2703C53263E8D6E522DC32203339DCD8EEE9")) true) =
    ([str "Scripthash big endian:  0xe9eed8dc39332032dc22e5d6e86332c50327ba23";
      str "Scripthash little endian: 23ba2703c53263e8d6e522dc32203339dcd8eee9";
      str "Scripthash neo-python format: b'#\xba\'\x03\xc52c\xe8\xd6\xe5""\xdc2 39\xdc\xd8\xee\xe9'";
      str "Detected little endian scripthash. Converting to big endian for internal use.";
      str "Big endian scripthash: 0xe9eed8dc39332032dc22e5d6e86332c50327ba23";
      str "AK2nJJpJr6o664CWJKi1QRXjqeic2zRp8y";
      str "{"; str "  ""private_key"": ""KwTNVQ9B4wXUfnTF6e1EQkTHJwbzeFGYyK7NdopxuJjQYvQkAxtA"","; str "  ""address"": ""ASYyVeavKoatAbwmTNqSoSqh7fC4gob3rr"""; str "}"], EndOfMain).
Proof. vm_compute. reflexivity. Qed.
