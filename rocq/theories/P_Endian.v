(** * P_Endian: C113, the endian argument as any text *)
From Coq Require Import Lia ZifyBool ZifyNat String Floats.SpecFloat.
From Verif Require Import M_Py M_Float M_UInt M_Writer M_Reader M_FloatIO M_Endian S_IO S_Endian L_Bytes L_IO L_VarInt L_IO2 L_Endian.

(** ** the methods in terms of struct *)
Lemma WriteBytes_packed b : writes (WriteBytes (VBytes b) false) (zlen b) b.
Proof. apply bio_write_end. Qed.
Lemma write_as_pack c v e s : write_as c v e s = (b <-- ilift (pack_letter c v e) ; WriteBytes (VBytes b) false) s.
Proof. destruct c; [reflexivity|reflexivity|destruct v; reflexivity..]. Qed.
Lemma read_as_unpack c e s : read_as c e s =
  (b <-- bio_read (width c) ; ilift (if zlen b =? width c then Ok (unpack_letter c e b) else Raise StructError)) s.
Proof.
  destruct c; cbn [read_as]; unfold ReadFloat, ReadDouble, ReadInt8, ReadUInt8, ReadInt16, ReadUInt16, ReadInt32, ReadUInt32, ReadInt64, ReadUInt64, unpack_int, struct_unpack_int, ibind, ilift, iret;
  cbn [width]; try change (Z.of_nat 1) with 1; try change (Z.of_nat 2) with 2; try change (Z.of_nat 4) with 4; try change (Z.of_nat 8) with 8;
  match goal with |- context [bio_read ?n s] => destruct (bio_read n s) as [[b|x] s'] end; try reflexivity;
  match goal with |- context [zlen ?l =? ?n] => destruct (zlen l =? n) end; reflexivity.
Qed.

Lemma takes_nonneg i : 0 <= it_count i -> 0 <= takes i.
Proof. unfold takes. destruct (_ =? 120); [lia|]. destruct (_ || _); lia. Qed.
Lemma values_app l m : values_of (l ++ m) = values_of l + values_of m.
Proof. unfold values_of. induction l as [|i l IH]; cbn [app fold_right]; [reflexivity|]. rewrite IH. lia. Qed.
Lemma values_nonneg l : Forall (fun i => 0 <= it_count i) l -> 0 <= values_of l.
Proof.
  unfold values_of. induction 1 as [|i l H _ IH]; cbn [fold_right]; [lia|]. pose proof (takes_nonneg i H). lia.
Qed.
Lemma values_zero l : Forall (fun i => 0 <= it_count i) l -> values_of l = 0 -> Forall (fun i => takes i = 0) l.
Proof.
  unfold values_of. induction 1 as [|i l H F IH]; cbn [fold_right]; intros V; constructor.
  - pose proof (takes_nonneg i H). pose proof (values_nonneg l F). unfold values_of in *. lia.
  - apply IH. pose proof (takes_nonneg i H). pose proof (values_nonneg l F). unfold values_of in *. lia.
Qed.
Lemma first_after l i : Forall (fun i => takes i = 0) l -> takes i <> 0 -> first_value (l ++ [i]) = Some (i, true).
Proof.
  intros F T. induction F as [|j l J _ IH]; cbn [app first_value].
  - replace (takes i =? 0) with false by lia. reflexivity.
  - rewrite J. exact IH.
Qed.
Lemma takes_letter c n off : takes (mkItem (letter c) n off) = n.
Proof. destruct c; reflexivity. Qed.

Lemma items_raise o : forall f cnt size x, items o f cnt size = Raise x -> x = StructError.
Proof.
  induction f as [|y f IH]; intros cnt size x H.
  - destruct cnt; cbn in H; congruence.
  - assert (One : forall n, match entry o y with
        | None => Raise StructError
        | Some (sz, al) => let off := align al size in
            if (maxsize <? off) || ((maxsize - off) / sz <? n) then Raise StructError
            else do lt <- items o f None (off + n * sz); Ok (mkItem y n off :: fst lt, snd lt)
        end = Raise x -> x = StructError).
    { intros n K. destruct (entry o y) as [[sz al]|]; [|congruence]. cbv zeta in K. destruct (_ || _); [congruence|].
      destruct (items o f None (align al size + n * sz)) eqn:E; [discriminate|]. cbn [rbind] in K. apply IH in E. congruence. }
    cbn [items] in H. destruct cnt as [k|].
    + destruct (is_digit y); [|exact (One k H)]. destruct (_ <? _); [congruence|]. exact (IH _ _ _ H).
    + destruct (is_space y); [exact (IH _ _ _ H)|]. destruct (is_digit y); [exact (IH _ _ _ H)|]. exact (One 1 H).
Qed.
Lemma split_incl t : incl (snd (split_order t)) t.
Proof.
  intros x Hx. destruct t as [|y r]; [exact Hx|]. cbn [split_order] in Hx.
  destruct (y =? 60); [right; exact Hx|]. destruct ((y =? 62) || (y =? 33)); [right; exact Hx|].
  destruct (y =? 61); [right; exact Hx|]. destruct (y =? 64); [right; exact Hx|]. exact Hx.
Qed.
Lemma split_zero t : zero_end (snd (split_order t)) None -> ends_in_zero_count t.
Proof.
  intros [(p & ds & E & D & F & P)|[X _]]; [|discriminate].
  assert (exists p', t = p' ++ ds /\ (p' = p \/ exists y, p' = y :: p /\ ~ 48 <= y <= 57)) as (p' & Et & P').
  { destruct t as [|y r]; [exists p; split; [exact E|left; reflexivity]|]. cbn [split_order] in E.
    destruct (y =? 60) eqn:Y1; [|destruct ((y =? 62) || (y =? 33)) eqn:Y2; [|destruct (y =? 61) eqn:Y3; [|destruct (y =? 64) eqn:Y4]]]; cbn [snd] in E.
    1-4: exists (y :: p); split; [rewrite E; reflexivity|right; exists y; split; [reflexivity|lia]].
    exists p. split; [exact E|left; reflexivity]. }
  exists p', ds. split; [exact Et|]. split; [exact D|]. split; [exact F|]. intros q c Q.
  destruct P' as [->|(y & -> & Y)], P as [[-> _]|(q' & c' & -> & C)].
  - destruct q; discriminate.
  - apply app_inj_tail in Q as [_ <-]. exact C.
  - change [y] with ([] ++ [y]) in Q. apply app_inj_tail in Q as [_ <-]. exact Y.
  - change (y :: q' ++ [c']) with ((y :: q') ++ [c']) in Q. apply app_inj_tail in Q as [_ <-]. exact C.
Qed.

(** ** C113 *)
(** An order character or none, followed by blanks, is one of the two byte orders: '=', '@' and no
    character are little endian, '!' is big endian. *)
Lemma prepare_stands c t e : stands_for t e ->
  exists o, order_endian o = e /\ prepare (t ++ [letter c]) = Ok (o, ([mkItem (letter c) 1 0], width c)).
Proof.
  intros (p & ws & -> & W & O). rewrite prepare_text.
  assert (existsb (fun x => 127 <? x) (p ++ ws) = false) as ->.
  { apply Bool.not_true_is_false. intros X. apply existsb_exists in X as (x & Hx & X). apply in_app_or in Hx as [Hx|Hx].
    - destruct O as [[_ [->|[->|[->| ->]]]]|[_ [->| ->]]]; cbn in Hx; lia.
    - rewrite Forall_forall in W. specialize (W x Hx). unfold blank in W. lia. }
  assert (forall o, items o (ws ++ [letter c]) None 0 = Ok ([mkItem (letter c) 1 0], width c)) as I.
  { intros o. clear O. induction W as [|x ws X W IH].
    - destruct c, o as [|[]]; reflexivity.
    - cbn [app items]. replace (is_space x) with true by (unfold is_space, blank in *; lia). exact IH. }
  assert (ws = [] \/ exists x r, ws = x :: r /\ blank x) as N.
  { destruct W as [|x r X _]; [left; reflexivity|right; eauto]. }
  destruct O as [[-> [->|[->|[->| ->]]]]|[-> [->| ->]]].
  - exists Native. split; [reflexivity|]. cbn [app]. destruct N as [->|(x & r & -> & X)].
    + cbn [split_order fst snd]. rewrite I. reflexivity.
    + assert (split_order (x :: r) = (Native, x :: r)) as ->.
      { unfold blank in X. cbn [split_order]. replace (x =? 60) with false by lia. replace ((x =? 62) || (x =? 33)) with false by lia.
        replace (x =? 61) with false by lia. replace (x =? 64) with false by lia. reflexivity. }
      cbn [fst snd]. rewrite I. reflexivity.
  - exists (Std LE). split; [reflexivity|]. change (split_order (str "<" ++ ws)) with (Std LE, ws). cbn [fst snd]. rewrite I. reflexivity.
  - exists (Std LE). split; [reflexivity|]. change (split_order (str "=" ++ ws)) with (Std LE, ws). cbn [fst snd]. rewrite I. reflexivity.
  - exists Native. split; [reflexivity|]. change (split_order (str "@" ++ ws)) with (Native, ws). cbn [fst snd]. rewrite I. reflexivity.
  - exists (Std BE). split; [reflexivity|]. change (split_order (str ">" ++ ws)) with (Std BE, ws). cbn [fst snd]. rewrite I. reflexivity.
  - exists (Std BE). split; [reflexivity|]. change (split_order (str "!" ++ ws)) with (Std BE, ws). cbn [fst snd]. rewrite I. reflexivity.
Qed.
Theorem C113_order_write : forall c v t e, stands_for t e ->
  exists m, write_text c v t = Some m /\ forall s, m s = write_as c v e s.
Proof.
  intros c v t e H. destruct (prepare_stands c t e H) as (o & <- & P). unfold write_text, struct_pack_text. rewrite P.
  unfold values_of. cbn [fold_right first_value]. rewrite takes_letter. cbn [Z.add Z.eqb Pos.eqb negb option_map it_off Z.to_nat repeat app].
  eexists. split; [reflexivity|]. intros s. rewrite write_as_pack. destruct (pack_letter c v (order_endian o)); reflexivity.
Qed.
Print Assumptions C113_order_write.
Theorem C113_order_read : forall c t e s, stands_for t e -> read_text c t s = read_as c e s.
Proof.
  intros c t e s H. destruct (prepare_stands c t e H) as (o & <- & P). rewrite read_as_unpack.
  unfold read_text, struct_unpack_text, ibind, ilift. rewrite P. cbn [rbind]. pose proof (width_pos c).
  destruct (bio_read (width c) s) as [[b|x] s']; [|reflexivity].
  destruct (zlen b =? width c) eqn:L.
  - replace (width c =? zlen b) with true by lia. cbn [negb first_value]. rewrite takes_letter. cbn [Z.eqb it_off].
    unfold slice. cbn [Z.to_nat skipn Nat.sub Z.add]. rewrite firstn_all2 by (unfold zlen in L; lia). reflexivity.
  - replace (width c =? zlen b) with false by lia. reflexivity.
Qed.
Print Assumptions C113_order_read.

(** Any other text of punctuation is refused: nothing is written; a read has taken its bytes by then. *)
Lemma not_blank_items o c : forall r size, Forall punctuation r -> ~ Forall blank r -> items o (r ++ [letter c]) None size = Raise StructError.
Proof.
  induction r as [|x r IH]; intros size F N; [destruct N; constructor|]. apply Forall_cons_iff in F as [X F]. cbn [app items].
  destruct (is_space x) eqn:W.
  - apply IH; [exact F|]. intros B. apply N. constructor; [unfold is_space, blank in *; lia|exact B].
  - unfold punctuation in X. replace (is_digit x) with false by (unfold is_digit; lia).
    assert (entry o x = None) as ->; [|reflexivity].
    destruct o; unfold entry; cbn [existsb];
    repeat match goal with |- context [x =? ?k] => replace (x =? k) with false by lia end; reflexivity.
Qed.
Lemma prepare_punctuation c t : Forall punctuation t -> (forall e, ~ stands_for t e) -> prepare (t ++ [letter c]) = Raise StructError.
Proof.
  intros F N. rewrite prepare_text. assert (existsb (fun x => 127 <? x) t = false) as ->.
  { apply Bool.not_true_is_false. intros X. apply existsb_exists in X as (x & Hx & X). rewrite Forall_forall in F. specialize (F x Hx). unfold punctuation in F. lia. }
  rewrite not_blank_items; [reflexivity| |].
  - rewrite Forall_forall in *. intros x Hx. apply F, split_incl, Hx.
  - intros B. destruct t as [|x r].
    + apply (N LE). exists [], []. repeat split; [constructor|]. left. split; [reflexivity|left; reflexivity].
    + assert (G : forall k, x = k -> [x] ++ r = x :: r) by reflexivity. cbn [split_order] in B.
      destruct (x =? 60) eqn:X1; [|destruct ((x =? 62) || (x =? 33)) eqn:X2; [|destruct (x =? 61) eqn:X3; [|destruct (x =? 64) eqn:X4]]]; cbn [snd] in B.
      * apply (N LE). exists (str "<"), r. assert (x = 60) as -> by lia. repeat split; [exact B|]. left. split; [reflexivity|]. right. left. reflexivity.
      * apply (N BE). destruct (x =? 62) eqn:X5.
        -- exists (str ">"), r. assert (x = 62) as -> by lia. repeat split; [exact B|]. right. split; [reflexivity|]. left. reflexivity.
        -- exists (str "!"), r. assert (x = 33) as -> by lia. repeat split; [exact B|]. right. split; [reflexivity|]. right. reflexivity.
      * apply (N LE). exists (str "="), r. assert (x = 61) as -> by lia. repeat split; [exact B|]. left. split; [reflexivity|]. right. right. left. reflexivity.
      * apply (N LE). exists (str "@"), r. assert (x = 64) as -> by lia. repeat split; [exact B|]. left. split; [reflexivity|]. right. right. right. reflexivity.
      * apply (N LE). exists [], (x :: r). repeat split; [exact B|]. left. split; [reflexivity|left; reflexivity].
Qed.
Lemma write_bad c v t x : prepare (t ++ [letter c]) = Raise x -> exists m, write_text c v t = Some m /\ refuses m x.
Proof. intros P. unfold write_text, struct_pack_text. rewrite P. eexists. split; [reflexivity|]. intros s. reflexivity. Qed.
Lemma bio_taken c s : bio_read (width c) s = (Ok (firstn (Z.to_nat (width c)) (remaining s)), taken (width c) s).
Proof.
  pose proof (width_pos c). rewrite bio_read_spec by (unfold maxsize; lia). unfold taken. rewrite firstn_length. reflexivity.
Qed.
Lemma read_bad c t x s : prepare (t ++ [letter c]) = Raise x -> read_text c t s = (Raise x, taken (width c) s).
Proof. intros P. unfold read_text, struct_unpack_text, ibind, ilift. rewrite P, bio_taken. reflexivity. Qed.
Theorem C113_punctuation : forall c v t, Forall punctuation t -> (forall e, ~ stands_for t e) ->
  (exists m, write_text c v t = Some m /\ refuses m StructError) /\
  (forall s, read_text c t s = (Raise StructError, taken (width c) s)).
Proof.
  intros c v t F N. pose proof (prepare_punctuation c t F N) as P. split; [apply write_bad, P|intros s; apply read_bad, P].
Qed.
Print Assumptions C113_punctuation.
Theorem C113_not_ascii : forall c v t, Exists (fun x => 127 < x) t ->
  (exists m, write_text c v t = Some m /\ refuses m UnicodeError) /\
  (forall s, read_text c t s = (Raise UnicodeError, taken (width c) s)).
Proof.
  intros c v t F. assert (prepare (t ++ [letter c]) = Raise UnicodeError) as P.
  { rewrite prepare_text. replace (existsb (fun x => 127 <? x) t) with true; [reflexivity|]. symmetry. apply existsb_exists.
    apply Exists_exists in F as (x & Hx & X). exists x. split; [exact Hx|lia]. }
  split; [apply write_bad, P|intros s; apply read_bad, P].
Qed.
Print Assumptions C113_not_ascii.

(** Whatever the text, unless it ends in a zero count: a write either writes nothing or the encoding
    of one of the two byte orders, possibly after zero bytes, and those only if the text has an x. *)
Lemma prepare_shape c t o l total : prepare (t ++ [letter c]) = Ok (o, (l, total)) ->
  exists pre n off, shape c (snd (split_order t)) None 0 l total pre n off.
Proof.
  intros P. rewrite prepare_text in P. destruct (existsb _ t); [discriminate|].
  destruct (items (fst (split_order t)) (snd (split_order t) ++ [letter c]) None 0) as [[l' total']|] eqn:I; [|discriminate].
  cbn [rbind] in P. assert (l' = l /\ total' = total) as (-> & ->) by (split; congruence).
  eapply items_shape; [|discriminate|exact I]. lia.
Qed.
Lemma prepare_raise c t x : prepare (t ++ [letter c]) = Raise x -> x = StructError \/ x = UnicodeError.
Proof.
  intros P. rewrite prepare_text in P. destruct (existsb _ t); [right; congruence|]. left.
  destruct (items _ _ _ _) eqn:E; [discriminate|]. apply items_raise in E. cbn [rbind] in P. congruence.
Qed.
Theorem C113_write_any : forall c v t, ~ ends_in_zero_count t ->
  exists m, write_text c v t = Some m /\
    ((exists x, refuses m x /\ (x = StructError \/ x = UnicodeError \/ exists e, refuses (write_as c v e) x)) \/
     (exists e enc k, writes (write_as c v e) (zlen enc) enc /\ writes m (Z.of_nat k + zlen enc) (repeat x00 k ++ enc) /\
        ((0 < k)%nat -> In 120 t))).
Proof.
  intros c v t NZ. destruct (prepare (t ++ [letter c])) as [[o [l total]]|x] eqn:P.
  2:{ destruct (write_bad c v t x P) as (m & M & R). exists m. split; [exact M|]. left. exists x. split; [exact R|].
      destruct (prepare_raise c t x P); tauto. }
  destruct (prepare_shape c t o l total P) as (pre & n & off & [S1 S2 S3 S4 S5 S6 S7]).
  assert (n <> 0) as N by (intros ->; apply NZ, split_zero, S7; reflexivity).
  assert (Forall (fun i => 0 <= it_count i) pre) as C by (eapply Forall_impl; [|exact S5]; cbn beta; tauto).
  unfold write_text, struct_pack_text. rewrite P, S1, values_app.
  change (values_of [mkItem (letter c) n off]) with (takes (mkItem (letter c) n off) + 0). rewrite takes_letter.
  pose proof (values_nonneg pre C) as V. destruct (values_of pre + (n + 0) =? 1) eqn:E; cbn [negb].
  2:{ eexists. split; [reflexivity|]. left. exists StructError. split; [intros s; reflexivity|left; reflexivity]. }
  assert (values_of pre = 0 /\ n = 1) as [V0 ->] by lia. pose proof (values_zero pre C V0) as T.
  rewrite first_after; [|exact T|rewrite takes_letter; lia]. cbn [option_map it_off].
  eexists. split; [reflexivity|]. destruct (pack_letter c v (order_endian o)) as [enc|x] eqn:K; cbn [rbind].
  - right. exists (order_endian o), enc, (Z.to_nat off). split; [|split].
    + intros p. rewrite write_as_pack, K. apply WriteBytes_packed.
    + intros p. unfold ibind, ilift. rewrite WriteBytes_packed. unfold zlen. rewrite app_length, repeat_length. do 2 f_equal. lia.
    + intros Off. destruct (in_dec Z.eq_dec 120 t) as [J|J]; [exact J|]. exfalso. assert (off = 0); [|lia]. apply S6; [|reflexivity].
      rewrite Forall_forall in *. intros i Hi. specialize (T i Hi). specialize (S5 i Hi). destruct S5 as (_ & _ & _ & Hc).
      unfold takes in T. destruct (it_code i =? 120) eqn:X.
      * exfalso. apply J. apply split_incl. assert (120 = it_code i) as -> by lia. exact Hc.
      * destruct (_ || _); lia.
  - left. exists x. split; [intros s; reflexivity|]. right. right. exists (order_endian o). intros s. rewrite write_as_pack, K. reflexivity.
Qed.
Print Assumptions C113_write_any.

(** A read always moves on by the method's own width; it raises, or returns what one of the two byte
    orders returns - or an empty bytes object, if the text has an s. *)
Theorem C113_read_any : forall c t s, ~ ends_in_zero_count t ->
  exists r, read_text c t s = (r, taken (width c) s) /\
    (r = Raise StructError \/ r = Raise UnicodeError \/
     (exists e u, r = Ok u /\ read_as c e s = (Ok u, taken (width c) s)) \/
     (r = Ok (RBytes []) /\ In 115 t) \/ In 112 t).
Proof.
  intros c t s NZ. unfold read_text. set (b := firstn (Z.to_nat (width c)) (remaining s)).
  exists (struct_unpack_text c t b). split; [unfold ibind, ilift; rewrite bio_taken; reflexivity|].
  destruct (prepare (t ++ [letter c])) as [[o [l total]]|x] eqn:P.
  2:{ unfold struct_unpack_text. rewrite P. cbn [rbind]. destruct (prepare_raise c t x P) as [->| ->]; tauto. }
  destruct (prepare_shape c t o l total P) as (pre & n & off & [S1 S2 S3 S4 S5 S6 S7]).
  assert (n <> 0) as N by (intros ->; apply NZ, split_zero, S7; reflexivity).
  unfold struct_unpack_text. rewrite P. cbn [rbind]. destruct (total =? zlen b) eqn:L; cbn [negb]; [|left; reflexivity].
  pose proof (width_pos c) as W. assert (zlen b <= width c) as B by (unfold b, zlen; rewrite firstn_length; lia).
  assert (n = 1 /\ off = 0) as [-> ->] by nia.
  rewrite S1. clear S1. destruct (Forall_dec (fun i => takes i = 0) (fun i => Z.eq_dec (takes i) 0) pre) as [T|T].
  - rewrite first_after; [|exact T|rewrite takes_letter; lia]. right. right. left. exists (order_endian o). eexists. split; [reflexivity|].
    cbn [it_off]. unfold slice. cbn [Z.to_nat skipn Nat.sub Z.add]. rewrite firstn_all2 by (unfold zlen in *; lia).
    rewrite read_as_unpack. unfold ibind, ilift. rewrite bio_taken. fold b. replace (zlen b =? width c) with true by lia. reflexivity.
  - assert (exists i, In i pre /\ takes i <> 0 /\ first_value (pre ++ [mkItem (letter c) 1 0]) = Some (i, false)) as (i & Hi & Ti & Fi).
    { clear -T. induction pre as [|j pre IH]; [destruct T; constructor|]. cbn [app first_value]. destruct (takes j =? 0) eqn:J.
      - destruct IH as (i & Hi & K); [intros F; apply T; constructor; [lia|exact F]|]. exists i. split; [right; exact Hi|exact K].
      - exists j. split; [left; reflexivity|]. split; [lia|]. destruct pre; reflexivity. }
    rewrite Fi. rewrite Forall_forall in S5. destruct (S5 i Hi) as (C1 & C2 & C3 & C4).
    assert (it_count i = 0) as C0 by lia. rewrite C0, Z.add_0_r. unfold takes in Ti. rewrite C0 in Ti.
    destruct (it_code i =? 120); [lia|]. destruct (it_code i =? 115) eqn:X.
    + right. right. right. left. split; [unfold slice; rewrite Nat.sub_diag; reflexivity|]. apply split_incl. assert (115 = it_code i) as -> by lia. exact C4.
    + right. right. right. right. apply split_incl. assert (112 = it_code i) as ->; [|exact C4]. destruct (it_code i =? 112) eqn:Y; [lia|]. cbn [orb] in Ti. lia.
Qed.
Print Assumptions C113_read_any.

(** k times the letter x after an order character puts k zero bytes in front; such a text cannot be read back *)
Definition order_char (e : endian) : pystr := match e with LE => str "<" | BE => str ">" end.
Lemma items_x e c : forall k size, 0 <= size -> size + Z.of_nat k + 8 <= maxsize ->
  exists pre, Forall (fun i => takes i = 0) pre /\
    items (Std e) (repeat 120 k ++ [letter c]) None size = Ok (pre ++ [mkItem (letter c) 1 (size + Z.of_nat k)], size + Z.of_nat k + width c).
Proof.
  induction k as [|k IH]; intros size P B.
  - exists []. split; [constructor|]. cbn [repeat app items]. destruct (letter_plain c) as [-> ->]. pose proof (width_pos c) as W.
    assert (entry (Std e) (letter c) = Some (width c, 1)) as -> by (destruct c; reflexivity). cbv zeta.
    replace (align 1 size) with size by (unfold align; rewrite Z.div_1_r; lia).
    assert (1 <= (maxsize - size) / width c) by (apply Z.div_le_lower_bound; lia).
    replace ((maxsize <? size) || ((maxsize - size) / width c <? 1)) with false by lia.
    cbn [rbind fst snd]. do 4 f_equal; lia.
  - destruct (IH (size + 1)) as (pre & F & E); [lia|lia|]. exists (mkItem 120 1 size :: pre). split; [constructor; [reflexivity|exact F]|].
    cbn [repeat app items]. change (is_space 120) with false. change (is_digit 120) with false. change (entry (Std e) 120) with (Some (1, 1)). cbv iota zeta.
    replace (align 1 size) with size by (unfold align; rewrite Z.div_1_r; lia). rewrite Z.div_1_r.
    replace ((maxsize <? size) || (maxsize - size <? 1)) with false by lia. change (1 * 1) with 1. rewrite E. cbn [rbind fst snd].
    do 3 f_equal; [|lia]. do 3 f_equal. lia.
Qed.
Theorem C113_padding : forall c v e k, Z.of_nat k + 8 <= maxsize ->
  exists m, write_text c v (order_char e ++ repeat 120 k) = Some m /\
    (forall enc, writes (write_as c v e) (zlen enc) enc -> writes m (Z.of_nat k + zlen enc) (repeat x00 k ++ enc)) /\
    ((0 < k)%nat -> forall s, read_text c (order_char e ++ repeat 120 k) s = (Raise StructError, taken (width c) s)).
Proof.
  intros c v e k B. destruct (items_x e c k 0 ltac:(lia) B) as (pre & F & E). rewrite Z.add_0_l in E.
  assert (prepare ((order_char e ++ repeat 120 k) ++ [letter c]) = Ok (Std e, (pre ++ [mkItem (letter c) 1 (Z.of_nat k)], Z.of_nat k + width c))) as P.
  { rewrite prepare_text. assert (existsb (fun x => 127 <? x) (order_char e ++ repeat 120 k) = false) as ->.
    { apply Bool.not_true_is_false. intros X. apply existsb_exists in X as (x & Hx & X). apply in_app_or in Hx as [Hx|Hx].
      - destruct e; cbn in Hx; lia.
      - apply repeat_spec in Hx. lia. }
    assert (split_order (order_char e ++ repeat 120 k) = (Std e, repeat 120 k)) as -> by (destruct e; reflexivity).
    cbn [fst snd]. rewrite E. reflexivity. }
  unfold write_text, struct_pack_text. rewrite P, values_app.
  assert (values_of pre = 0) as ->. { clear -F. induction F as [|i l H _ IH]; [reflexivity|]. unfold values_of in *. cbn [fold_right]. lia. }
  change (values_of [mkItem (letter c) 1 (Z.of_nat k)]) with (takes (mkItem (letter c) 1 (Z.of_nat k)) + 0). rewrite takes_letter.
  cbn [Z.add Z.eqb Pos.eqb negb]. rewrite first_after; [|exact F|rewrite takes_letter; lia]. cbn [option_map it_off order_endian].
  eexists. split; [reflexivity|]. split.
  - intros enc Hw. destruct (pack_letter c v e) as [enc'|x] eqn:K.
    + assert (enc' = enc) as ->.
      { pose proof (Hw []) as H1. rewrite write_as_pack, K in H1. unfold ibind, ilift in H1. rewrite (WriteBytes_packed enc' []) in H1.
        cbn [app] in H1. unfold at_end in H1. congruence. }
      intros p. cbn [rbind]. unfold ibind, ilift. rewrite WriteBytes_packed, Nat2Z.id. unfold zlen. rewrite app_length, repeat_length. do 2 f_equal. lia.
    + specialize (Hw []). rewrite write_as_pack, K in Hw. discriminate.
  - intros K s. unfold read_text, struct_unpack_text, ibind, ilift. rewrite P, bio_taken. cbn [rbind].
    set (b := firstn (Z.to_nat (width c)) (remaining s)). assert (zlen b <= width c) as Lb by (unfold b, zlen; pose proof (width_pos c); rewrite firstn_length; lia).
    replace (Z.of_nat k + width c =? zlen b) with false by lia. reflexivity.
Qed.
Print Assumptions C113_padding.

(** WriteVarInt and WriteVarBytes pass the text on, but only for values from 253 on, and after the marker byte *)
Theorem C113_varint_order : forall value t e, stands_for t e ->
  exists m, WriteVarInt_text value t = Some m /\ forall s, m s = WriteVarInt value e s.
Proof.
  intros value t e H. unfold WriteVarInt_text, WriteVarInt. destruct (as_int value) as [v|]; [|eexists; split; reflexivity].
  destruct (v <? 0); [eexists; split; reflexivity|]. destruct (v <? 253); [eexists; split; reflexivity|].
  destruct (v <=? 65535); [|destruct (v <=? 4294967295)];
  [destruct (C113_order_write CH (AInt v) t e H) as (m & -> & M)|destruct (C113_order_write CI (AInt v) t e H) as (m & -> & M)|
   destruct (C113_order_write CQ (AInt v) t e H) as (m & -> & M)]; cbn [option_map]; (eexists; split; [reflexivity|]); intros s;
  unfold ibind; destruct (WriteByte _ s) as [[[]|x] s']; try reflexivity; rewrite M; reflexivity.
Qed.
Print Assumptions C113_varint_order.
Theorem C113_varint_small : forall value v t, as_int value = Some v -> 0 <= v < 253 ->
  exists m, WriteVarInt_text value t = Some m /\ forall s, m s = WriteVarInt value LE s.
Proof.
  intros value v t A V. unfold WriteVarInt_text, WriteVarInt. rewrite A. replace (v <? 0) with false by lia. replace (v <? 253) with true by lia.
  eexists. split; reflexivity.
Qed.
Print Assumptions C113_varint_small.
Theorem C113_varint_marker_left : forall value v t, as_int value = Some v -> 253 <= v -> Forall punctuation t -> (forall e, ~ stands_for t e) ->
  exists m mark, WriteVarInt_text value t = Some m /\
    (mark = xfd /\ v < 2 ^ 16 \/ mark = xfe /\ 2 ^ 16 <= v < 2 ^ 32 \/ mark = xff /\ 2 ^ 32 <= v) /\
    forall pre, m (at_end pre) = (Raise StructError, at_end (pre ++ [mark])).
Proof.
  intros value v t A V F N.
  assert (Mark : forall c z b, 0 <= z <= 255 -> b2z b = z -> exists m : io (option Z), 
    option_map (fun w : io Z => WriteByte (VInt z) ;; (n <-- w ; iret (Some n))) (write_text c (AInt v) t) = Some m /\
    forall pre, m (at_end pre) = (Raise StructError, at_end (pre ++ [b]))).
  { intros c z b Hz Hb. destruct (C113_punctuation c (AInt v) t F N) as [(w & -> & W) _]. cbn [option_map]. eexists. split; [reflexivity|].
    intros pre. unfold ibind at 1. assert (b = z2b z) as -> by (rewrite <- Hb; symmetry; apply z2b_b2z). rewrite (WriteByte_int z Hz pre). unfold ibind. rewrite W. reflexivity. }
  unfold WriteVarInt_text. rewrite A. replace (v <? 0) with false by lia. replace (v <? 253) with false by lia.
  destruct (v <=? 65535) eqn:E1; [|destruct (v <=? 4294967295) eqn:E2].
  - destruct (Mark CH 253 xfd ltac:(lia) eq_refl) as (m & M & R). exists m, xfd. split; [exact M|]. split; [left; split; [reflexivity|lia]|exact R].
  - destruct (Mark CI 254 xfe ltac:(lia) eq_refl) as (m & M & R). exists m, xfe. split; [exact M|]. split; [right; left; split; [reflexivity|lia]|exact R].
  - destruct (Mark CQ 255 xff ltac:(lia) eq_refl) as (m & M & R). exists m, xff. split; [exact M|]. split; [right; right; split; [reflexivity|lia]|exact R].
Qed.
Print Assumptions C113_varint_marker_left.
(** WriteVarBytes then leaves the marker without length and data *)
Theorem C113_varbytes_marker_left : forall data t, 253 <= zlen data -> Forall punctuation t -> (forall e, ~ stands_for t e) ->
  exists m mark, WriteVarBytes_text (VBytes data) t = Some m /\
    forall pre, m (at_end pre) = (Raise StructError, at_end (pre ++ [mark])).
Proof.
  intros data t L F N. destruct (C113_varint_marker_left (VInt (zlen data)) (zlen data) t eq_refl L F N) as (m & mark & M & _ & R).
  unfold WriteVarBytes_text. cbn [py_len]. rewrite M. cbn [option_map]. eexists _, mark. split; [reflexivity|]. intros pre. unfold ibind. rewrite R. reflexivity.
Qed.
Print Assumptions C113_varbytes_marker_left.
Theorem C113_varbytes_order : forall value t e, stands_for t e ->
  exists m, WriteVarBytes_text value t = Some m /\ forall s, m s = WriteVarBytes value e s.
Proof.
  intros value t e H. unfold WriteVarBytes_text, WriteVarBytes. destruct (py_len value) as [n|x]; [|eexists; split; reflexivity].
  destruct (C113_varint_order (VInt n) t e H) as (m & -> & M). cbn [option_map]. eexists. split; [reflexivity|]. intros s. unfold ibind, ilift. rewrite M. reflexivity.
Qed.
Print Assumptions C113_varbytes_order.

Definition run_write (c : wcode) (z : Z) (t : pystr) : option (res Z * stream) := option_map (fun m => m (at_end [])) (write_text c (AInt z) t).
Example C113_example :
  stands_for (str "! ") BE /\ run_write CH 258 (str "! ") = Some (Ok 2, at_end [x01; x02]) /\ run_write CH 258 (str "=") = Some (Ok 2, at_end [x02; x01]) /\
  Forall punctuation (str "~") /\ (forall e, ~ stands_for (str "~") e) /\ run_write CH 258 (str "~") = Some (Raise StructError, at_end []) /\
  Forall punctuation (str " >") /\ run_write CH 258 (str " >") = Some (Raise StructError, at_end []) /\
  run_write CH 258 (str ">x") = Some (Ok 3, at_end [x00; x01; x02]) /\ run_write CI 1 (str "@x") = Some (Ok 8, at_end [x00; x00; x00; x00; x01; x00; x00; x00]) /\
  run_write CI 1 (str "big") = Some (Raise StructError, at_end []) /\ run_write CI 1 (str "<2") = Some (Raise StructError, at_end []) /\
  run_write CI 1 (str "<b0") = None /\ ends_in_zero_count (str "<b0") /\ ~ ends_in_zero_count (str "<x10") /\
  read_text CH (str "!") (mkStream [x01; x02; x03] 0) = (Ok (RInt 258), mkStream [x01; x02; x03] 2) /\
  read_text CH (str "~") (mkStream [x01; x02; x03] 0) = (Raise StructError, mkStream [x01; x02; x03] 2) /\
  read_text CH (str "<0s") (mkStream [x01; x02; x03] 0) = (Ok (RBytes []), mkStream [x01; x02; x03] 2).
Proof.
  assert (P : forall e, ~ stands_for [126] e).
  { intros e (o & ws & E & W & O). destruct O as [[_ [->|[->|[->| ->]]]]|[_ [->| ->]]]; cbn in E; try discriminate.
    destruct ws as [|x ws]; [discriminate|]. assert (x = 126) as -> by congruence. apply Forall_cons_iff in W as [X _]. unfold blank in X. lia. }
  split. { exists (str "!"), (str " "). split; [reflexivity|]. split; [constructor; [left; reflexivity|constructor]|]. right. split; [reflexivity|right; reflexivity]. }
  split; [reflexivity|]. split; [reflexivity|].
  split. { change (str "~") with [126]. constructor; [|constructor]. unfold punctuation. lia. }
  split; [exact P|].
  split; [reflexivity|]. split. { change (str " >") with [32; 62]. constructor; [|constructor; [|constructor]]; unfold punctuation; lia. }
  do 6 (split; [reflexivity|]). 
  split. { exists (str "<b"), (str "0"). split; [reflexivity|]. split; [discriminate|]. split; [constructor; [reflexivity|constructor]|].
    intros q c Q. change (str "<b") with ([60] ++ [98]) in Q. apply app_inj_tail in Q as [_ <-]. lia. }
  split. { intros (p & ds & E & D & F & Q). change (str "<x10") with ([60; 120; 49; 48]) in E.
    destruct p as [|p1 [|p2 [|p3 [|p4 p]]]]; cbn [app] in E.
    - rewrite <- E in F. inversion F. lia.
    - assert (ds = [120; 49; 48]) as -> by congruence. inversion F. lia.
    - assert (ds = [49; 48]) as -> by congruence. inversion F. lia.
    - assert (p3 = 49) as -> by congruence. apply (Q [p1; p2] 49); [reflexivity|lia].
    - destruct ds; [apply D; reflexivity|]. assert (p = [] /\ ds = []) as [-> ->] by (destruct p; [split; [reflexivity|destruct ds; [reflexivity|discriminate]]|discriminate]).
      discriminate. }
  repeat split.
Qed.
