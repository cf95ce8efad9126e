(** * P_ClassName: property C104 (ReadSerializableArray's class_name).  The vocabulary is that of
    S_IO; a class name is written [m ++ 46 :: c], the module path, a dot, the rest. *)
From Coq Require Import String Lia ZifyBool ZifyNat.
From Verif Require Import M_Py M_UInt M_Writer M_Reader M_ClassName S_IO S_IO2 L_Bytes L_IO L_VarInt L_Hex L_IO2 L_IO3.

Lemma split_dot_ne s : split_dot s <> [].
Proof. destruct s as [|c r]; [discriminate|]. cbn [split_dot]. destruct (c =? 46); [discriminate|]. destruct (split_dot r); discriminate. Qed.
Lemma split_nodot c : ~ In 46 c -> split_dot c = [c].
Proof.
  induction c as [|x c IH]; intros H; [reflexivity|]. cbn [split_dot].
  replace (x =? 46) with false by (destruct (Z.eqb_spec x 46); [exfalso; apply H; left; assumption|reflexivity]).
  rewrite IH; [reflexivity|]. intros Hin. apply H. right. exact Hin.
Qed.
Lemma split_app m c : split_dot (m ++ 46 :: c) = split_dot m ++ split_dot c.
Proof.
  induction m as [|x m IH]; [reflexivity|]. cbn [app split_dot]. destruct (x =? 46); [rewrite IH; reflexivity|].
  rewrite IH. destruct (split_dot m) as [|w ws] eqn:E; [exfalso; exact (split_dot_ne m E)|reflexivity].
Qed.
Lemma join_split m : join_dot (split_dot m) = m.
Proof.
  induction m as [|x m IH]; [reflexivity|]. cbn [split_dot]. destruct (Z.eqb_spec x 46) as [->|Hn].
  - pose proof (split_dot_ne m). destruct (split_dot m) as [|w ws]; [congruence|]. cbn [join_dot app] in *. rewrite IH. reflexivity.
  - pose proof (split_dot_ne m). destruct (split_dot m) as [|w ws]; [congruence|]. destruct ws; cbn [join_dot app] in *; rewrite IH; reflexivity.
Qed.
Lemma lookup_path {A} (E : modules A) m c : ~ In 46 c ->
  lookup_class E (m ++ 46 :: c) = (do i <- import_module E m; find_attr E i c).
Proof.
  intros H. unfold lookup_class. rewrite split_app, (split_nodot c H), removelast_last, last_last, join_split. reflexivity.
Qed.
Lemma lookup_plain {A} (E : modules A) c : ~ In 46 c -> lookup_class E c = Raise ValueError.
Proof. intros H. unfold lookup_class. rewrite (split_nodot c H). reflexivity. Qed.

(** ** C104 Looking the class up by name *)

(** The module is the text before the last dot, the class the text after it; if the module or the
    attribute cannot be found, the error comes before anything is read. *)
Theorem C104_not_found : forall A (E : modules A) m c max e, ~ In 46 c ->
  (m = [] -> refuses (ReadSerializableArray_named E (m ++ 46 :: c) max) ValueError) /\
  (forall r, m = 46 :: r -> refuses (ReadSerializableArray_named E (m ++ 46 :: c) max) TypeError) /\
  (m <> [] -> (forall r, m <> 46 :: r) ->
    (find_module E m = Raise e -> refuses (ReadSerializableArray_named E (m ++ 46 :: c) max) e) /\
    (forall i, find_module E m = Ok i -> find_attr E i c = Raise e ->
       refuses (ReadSerializableArray_named E (m ++ 46 :: c) max) e)).
Proof.
  intros A E m c max e H. unfold ReadSerializableArray_named. rewrite (lookup_path E m c H).
  split; [intros -> s; reflexivity|]. split; [intros r -> s; reflexivity|]. intros Hm Hr.
  assert (import_module E m = find_module E m) as ->.
  { destruct m as [|x m]; [congruence|]. cbn [import_module]. destruct (Z.eqb_spec x 46) as [->|]; [exfalso; apply (Hr m); reflexivity|reflexivity]. }
  split; [intros Hf s; rewrite Hf; reflexivity|]. intros i Hi Ha s. rewrite Hi. cbn [rbind]. rewrite Ha. reflexivity.
Qed.
Print Assumptions C104_not_found.

(** A name without a dot never works, not even for a class of the calling module. *)
Theorem C104_no_dot : forall A (E : modules A) c max, ~ In 46 c -> refuses (ReadSerializableArray_named E c max) ValueError.
Proof. intros A E c max H s. unfold ReadSerializableArray_named. rewrite (lookup_plain E c H). reflexivity. Qed.
Print Assumptions C104_no_dot.

(** [named E m c k]: the class c of the (absolute) module m is k. *)
Definition named {A} (E : modules A) (m c : pystr) (k : thing A) : Prop :=
  ~ In 46 c /\ m <> [] /\ (forall r, m <> 46 :: r) /\ exists i, find_module E m = Ok i /\ find_attr E i c = Ok k.
Lemma lookup_named {A} (E : modules A) m c k : named E m c k -> lookup_class E (m ++ 46 :: c) = Ok k.
Proof.
  intros (H & Hm & Hr & i & Hi & Ha). rewrite (lookup_path E m c H).
  assert (import_module E m = find_module E m) as ->.
  { destruct m as [|x m]; [congruence|]. cbn [import_module]. destruct (Z.eqb_spec x 46) as [->|]; [exfalso; apply (Hr m); reflexivity|reflexivity]. }
  rewrite Hi. exact Ha.
Qed.

(** A class that can be made without arguments: the array is read as C17 and C18 say. *)
Lemma things_loop {A} (k : thing A) a n s : th_call k = Ok a -> read_things k n s = deserialize_loop (th_deserialize k a) n s.
Proof.
  intros H. revert s. induction n as [|n IH]; intros s; [reflexivity|]. cbn [read_things deserialize_loop]. rewrite H.
  unfold ibind at 1, ilift. destruct (th_deserialize k a s) as [[x|e] s']; [|reflexivity].
  unfold ibind. rewrite IH. destruct (deserialize_loop _ n s') as [[l|e] s2]; reflexivity.
Qed.
Theorem C104_found : forall A (E : modules A) m c k a ser max s, named E m c k -> th_call k = Ok a ->
  ReadSerializableArray_named E (m ++ 46 :: c) max s = ReadSerializableArray (mkKlass A a ser (th_deserialize k)) max s.
Proof.
  intros A E m c k a ser max s Hn Ha. unfold ReadSerializableArray_named, ReadSerializableArray. rewrite (lookup_named _ _ _ _ Hn).
  unfold ibind, ilift. destruct (ReadVarInt max s) as [[n|e] s1]; [|reflexivity].
  rewrite (things_loop k a); [reflexivity|exact Ha].
Qed.
Print Assumptions C104_found.

(** A class whose constructor needs arguments (Fixed8, KeyPair, ECPoint), or a name that is no class
    at all: whatever count is announced, the result is the empty list, no error is reported, and the
    items stay unread. *)
Theorem C104_constructor_fails : forall A (E : modules A) m c k e max n p s rest, named E m c k -> th_call k = Raise e ->
  varint LE n p -> remaining s = p ++ rest -> n <= max ->
  ReadSerializableArray_named E (m ++ 46 :: c) max s = (Ok [], advance (List.length p) s).
Proof.
  intros A E m c k e max n p s rest Hn He Hv Hs Hm. unfold ReadSerializableArray_named. rewrite (lookup_named _ _ _ _ Hn).
  unfold ibind at 1, ilift. unfold ibind. rewrite (ReadVarInt_enc _ _ _ _ _ Hv Hs).
  replace ((n =? 0) || (n <=? max)) with true by lia.
  destruct (Z.to_nat n) as [|q]; [reflexivity|]. cbn [read_things]. rewrite He. reflexivity.
Qed.
Print Assumptions C104_constructor_fails.

(** Likewise for a class without Deserialize (BigInteger). *)
Theorem C104_no_deserialize : forall A (E : modules A) m c k a e max n p s rest, named E m c k -> th_call k = Ok a ->
  refuses (th_deserialize k a) e -> varint LE n p -> remaining s = p ++ rest -> n <= max ->
  ReadSerializableArray_named E (m ++ 46 :: c) max s = (Ok [], advance (List.length p) s).
Proof.
  intros A E m c k a e max n p s rest Hn Ha He Hv Hs Hm. unfold ReadSerializableArray_named. rewrite (lookup_named _ _ _ _ Hn).
  unfold ibind at 1, ilift. unfold ibind. rewrite (ReadVarInt_enc _ _ _ _ _ Hv Hs).
  replace ((n =? 0) || (n <=? max)) with true by lia. rewrite (things_loop k a) by exact Ha.
  destruct (Z.to_nat n) as [|q]; [reflexivity|]. cbn [deserialize_loop]. rewrite He. reflexivity.
Qed.
Print Assumptions C104_no_deserialize.

(** The base class SerializableMixin, whose methods do nothing: the count alone is written and
    read, so nine bytes suffice for any number of items. *)
Lemma mixin_loop n s : deserialize_loop (Mixin_Deserialize tt) n s = (Ok (repeat tt n), s).
Proof. induction n as [|n IH]; [reflexivity|]. cbn [deserialize_loop]. unfold Mixin_Deserialize at 1, iret at 1. rewrite IH. reflexivity. Qed.
Lemma mixin_write (l : list unit) : writes (serialize_all Mixin_Serialize l) tt [].
Proof. induction l as [|x l IH]; [apply writes_ret|]. intros pre. cbn [serialize_all]. unfold ibind, Mixin_Serialize at 1, iret at 1. apply IH. Qed.
Theorem C104_mixin : forall l max, zlen l <= max -> zlen l < 2 ^ 64 -> exists p, (List.length p <= 9)%nat /\
  varint LE (zlen l) p /\
  writes (WriteSerializableArray SerializableMixin_klass (Some l)) tt p /\
  reads (ReadSerializableArray SerializableMixin_klass max) p l.
Proof.
  intros l max Hm H. pose proof (zlen_nonneg l). exists (varenc LE (zlen l)).
  assert (Hv : varint LE (zlen l) (varenc LE (zlen l))) by (apply varenc_spec; lia).
  split; [destruct Hv; cbn [List.length]; lia|]. split; [exact Hv|]. split.
  - rewrite <- (app_nil_r (varenc LE (zlen l))). unfold WriteSerializableArray.
    eapply writes_bind; [apply WriteVarInt_writes; lia|]. apply mixin_write.
  - intros s rest Hs. unfold ReadSerializableArray, ibind. rewrite (ReadVarInt_enc _ _ _ _ _ Hv Hs).
    replace ((zlen l =? 0) || (zlen l <=? max)) with true by lia. cbn [k_deser k_new SerializableMixin_klass].
    rewrite mixin_loop. assert (repeat tt (Z.to_nat (zlen l)) = l) as ->; [|reflexivity].
    unfold zlen. rewrite Nat2Z.id. clear. induction l as [|[] l IH]; [reflexivity|]. cbn [List.length repeat]. rewrite IH. reflexivity.
Qed.
Print Assumptions C104_mixin.

(** An array of UInt256 beyond the end of the data: Deserialize does not notice, so every announced
    item is returned, with empty data. *)
Lemma uint_loop_eof u n s : remaining s = [] -> Z.of_nat (Size u) <= maxsize ->
  deserialize_loop (uint_Deserialize u) n s = (Ok (repeat (mkUInt (u_cls u) [] 0) n), s).
Proof.
  intros Hs Hl. assert (Hd : uint_Deserialize u s = (Ok (mkUInt (u_cls u) [] 0), s)).
  { unfold uint_Deserialize, ibind. rewrite ReadBytes_any by lia. rewrite Hs, firstn_nil.
    unfold advance. cbn [List.length]. rewrite Nat.add_0_r. destruct s; reflexivity. }
  induction n as [|n IH]; [reflexivity|]. cbn [deserialize_loop]. rewrite Hd, IH. reflexivity.
Qed.
Theorem C104_uint_beyond_end : forall n max, 0 <= n <= max -> n < 2 ^ 64 -> exists p, (List.length p <= 9)%nat /\
  fst (ReadSerializableArray UInt160_klass max (mkStream p 0)) = Ok (repeat (mkUInt CUInt160 [] 0) (Z.to_nat n)) /\
  fst (ReadSerializableArray UInt256_klass max (mkStream p 0)) = Ok (repeat (mkUInt CUInt256 [] 0) (Z.to_nat n)).
Proof.
  intros n max Hm Hn. assert (Hv : varint LE n (varenc LE n)) by (apply varenc_spec; lia). exists (varenc LE n).
  split; [destruct Hv; cbn [List.length]; lia|].
  assert (Hs : remaining (mkStream (varenc LE n) 0) = varenc LE n ++ []) by (rewrite app_nil_r; reflexivity).
  assert (He : remaining (advance (List.length (varenc LE n)) (mkStream (varenc LE n) 0)) = [])
    by (apply remaining_advance_app with (b := []); exact Hs).
  unfold ReadSerializableArray, ibind. rewrite (ReadVarInt_enc _ _ _ _ _ Hv Hs).
  replace ((n =? 0) || (n <=? max)) with true by lia. cbn [k_deser k_new UInt160_klass UInt256_klass].
  rewrite !uint_loop_eof by first [exact He|vm_compute; congruence]. split; reflexivity.
Qed.
Print Assumptions C104_uint_beyond_end.

(** A small world: module a.b with the classes Item (16-bit integers) and Bad (constructor needs
    an argument). *)
Definition demo : modules Z := mkModules
  (fun m => if list_eq_dec Z.eq_dec m (str "a.b") then Ok 0%nat else Raise PlainException)
  (fun _ c => if list_eq_dec Z.eq_dec c (str "Item") then Ok (mkThing (Ok 0) (fun _ => ReadUInt16 LE))
              else if list_eq_dec Z.eq_dec c (str "Bad") then Ok (mkThing (Raise TypeError) (fun _ => ReadUInt16 LE))
              else Raise AttributeError).
Example C104_example :
  named demo (str "a.b") (str "Item") (mkThing (Ok 0) (fun _ => ReadUInt16 LE)) /\
  let s := mkStream [x02; x01; x00; x02; x00] 0 in
  fst (ReadSerializableArray_named demo (str "a.b.Item") 10 s) = Ok [1; 2] /\
  ReadSerializableArray_named demo (str "a.b.Bad") 10 s = (Ok [], mkStream (content s) 1) /\
  ReadSerializableArray_named demo (str "a.b.None") 10 s = (Raise AttributeError, s) /\
  ReadSerializableArray_named demo (str "a.Item") 10 s = (Raise PlainException, s) /\
  ReadSerializableArray_named demo (str "Item") 10 s = (Raise ValueError, s) /\
  ReadSerializableArray_named demo (str "..Item") 10 s = (Raise TypeError, s).
Proof.
  split.
  { split; [cbn; intuition discriminate|]. split; [discriminate|]. split; [intros r; discriminate|]. exists 0%nat. split; reflexivity. }
  cbv zeta. repeat split; vm_compute; reflexivity.
Qed.
Print Assumptions C104_example.
