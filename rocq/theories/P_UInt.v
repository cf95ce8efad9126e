(** * P_UInt: properties C28-C34 (UIntBase, UInt160, UInt256). *)
From Coq Require Import String Lia ZifyBool ZifyNat.
From Verif Require Import M_Py M_UInt M_Writer M_Reader M_UIntHeap S_IO S_IO2 S_UInt
  L_Bytes L_IO L_VarInt L_Hex L_IO2 L_IO3 L_IO4 L_UInt.

(** ** C28 UInt construction enforces the size *)
Theorem C28_construct : forall cls n v u, UIntBase_init cls n v = Ok u <->
  exists d, (v = VNone /\ d = repeat x00 n \/ ((v = VBytes d \/ v = VBytearray d) /\ length d = n)) /\
    u = mkUInt cls d (num LE (firstn 4 d)).
Proof. exact init_spec. Qed.
Print Assumptions C28_construct.
Theorem C28_construct_160 : forall v u, new_UInt160 v = Ok u <->
  exists d, (v = VNone /\ d = repeat x00 20 \/ ((v = VBytes d \/ v = VBytearray d) /\ length d = 20%nat)) /\
    u = mkUInt CUInt160 d (num LE (firstn 4 d)).
Proof. exact (init_spec CUInt160 20). Qed.
Print Assumptions C28_construct_160.
Theorem C28_construct_256 : forall v u, new_UInt256 v = Ok u <->
  exists d, (v = VNone /\ d = repeat x00 32 \/ ((v = VBytes d \/ v = VBytearray d) /\ length d = 32%nat)) /\
    u = mkUInt CUInt256 d (num LE (firstn 4 d)).
Proof. exact (init_spec CUInt256 32). Qed.
Print Assumptions C28_construct_256.
(** the base class, with its explicit number of bytes *)
Theorem C28_construct_base : forall n v u, new_UIntBase n v = Ok u <->
  exists d, (v = VNone /\ d = repeat x00 n \/ ((v = VBytes d \/ v = VBytearray d) /\ length d = n)) /\
    u = mkUInt CUIntBase d (num LE (firstn 4 d)).
Proof. intros n. exact (init_spec CUIntBase n). Qed.
Print Assumptions C28_construct_base.
(** what "raises" means: there is no third outcome, and the exception classes *)
Theorem C28_refused : forall cls n v, (forall u, UIntBase_init cls n v <> Ok u) ->
  UIntBase_init cls n v = Raise (match v with VInt _ | VBool _ | VBig _ | VOther => TypeError | _ => PlainException end).
Proof.
  intros cls n v H. unfold UIntBase_init in *. destruct v as [b|b|s|z|b|z| |]; cbn [py_len rbind] in *; try reflexivity.
  - destruct (zlen b =? Z.of_nat n); [edestruct H; reflexivity|reflexivity].
  - destruct (zlen b =? Z.of_nat n); [edestruct H; reflexivity|reflexivity].
  - destruct (zlen s =? Z.of_nat n); reflexivity.
  - edestruct H. reflexivity.
Qed.
Print Assumptions C28_refused.
Example C28_example :
  new_UInt160 (VBytes (repeat x07 20)) = Ok (mkUInt CUInt160 (repeat x07 20) 117901063) /\
  new_UInt160 (VBytes (repeat x07 21)) = Raise PlainException /\
  new_UInt160 (VStr (repeat 55 20)) = Raise PlainException /\
  new_UInt256 VNone = Ok (mkUInt CUInt256 (repeat x00 32) 0) /\
  new_UInt256 (VInt 5) = Raise TypeError.
Proof. repeat split; reflexivity. Qed.

(** ** C29 UInt text form round-trips *)
Theorem C29_text_160 : forall u, is_UInt160 u ->
  UInt160_ParseString (ToString u) = Ok u /\ UInt160_ParseString (To0xString u) = Ok u.
Proof. exact roundtrip160. Qed.
Print Assumptions C29_text_160.
Theorem C29_text_256 : forall u, is_UInt256 u ->
  UInt256_ParseString (ToString u) = Ok u /\ UInt256_ParseString (To0xString u) = Ok u.
Proof. exact roundtrip256. Qed.
Print Assumptions C29_text_256.
Theorem C29_text_form : forall u, zlen (ToString u) = 2 * zlen (u_data u) /\
  Forall lower_hex_digit (ToString u) /\ hex_number (ToString u) = value_of u.
Proof. exact ToString_spec. Qed.
Print Assumptions C29_text_form.
Theorem C29_prefixed_form : forall u, To0xString u = str "0x" ++ ToString u.
Proof. reflexivity. Qed.
Print Assumptions C29_prefixed_form.
(** ToString2 writes the bytes in stored order, ToBytes is the ASCII encoding of ToString *)
Theorem C29_stored_order_form : forall u, zlen (ToString2 u) = 2 * zlen (u_data u) /\
  Forall lower_hex_digit (ToString2 u) /\ hex_number (ToString2 u) = num BE (u_data u).
Proof.
  intros u. unfold ToString2. split; [|split].
  - unfold zlen. rewrite hex_length. lia.
  - apply hex_lower_digits.
  - rewrite hex_number_hex. reflexivity.
Qed.
Print Assumptions C29_stored_order_form.
Theorem C29_ascii_form : forall u, map (fun b => Z.of_N (Byte.to_N b)) (ToBytes u) = ToString u.
Proof.
  intros u. unfold ToBytes. rewrite map_map. rewrite <- (map_id (ToString u)) at 2. apply map_ext_Forall.
  destruct (ToString_spec u) as (_ & F & _). eapply Forall_impl; [|exact F]. intros c Hc. unfold lower_hex_digit in Hc.
  change (b2z (z2b c) = c). rewrite b2z_z2b, Z.mod_small; lia.
Qed.
Print Assumptions C29_ascii_form.
Example C29_example : let u := mkUInt CUInt160 (x0a :: xff :: repeat x00 18) 65290 in
  is_UInt160 u /\ ToString u = str "000000000000000000000000000000000000ff0a" /\
  hex_number (ToString u) = 65290 /\ UInt160_ParseString (ToString u) = Ok u.
Proof. repeat split; vm_compute; reflexivity. Qed.

(** ** C30 ParseString accepts exactly well-formed hex *)
Theorem C30_parse_160 : forall s u, UInt160_ParseString s = Ok u <->
  exists t, unprefixed s t /\ length t = 40%nat /\ Forall hex_digit_code t /\ is_UInt160 u /\ ToString u = map lower t.
Proof. exact parse160. Qed.
Print Assumptions C30_parse_160.
Theorem C30_parse_256 : forall s u, UInt256_ParseString s = Ok u <->
  exists t, unprefixed s t /\ length t = 64%nat /\ Forall hex_digit_code t /\ is_UInt256 u /\ ToString u = map lower t.
Proof. exact parse256. Qed.
Print Assumptions C30_parse_256.
(** every well-formed text is accepted *)
Theorem C30_accepts_160 : forall s t, unprefixed s t -> length t = 40%nat -> Forall hex_digit_code t ->
  exists u, UInt160_ParseString s = Ok u /\ is_UInt160 u /\ ToString u = map lower t.
Proof.
  intros s t Hs Hl Hf.
  assert (Hx : hex_text t) by (split; [exists 20%nat; lia|exact Hf]).
  destruct (proj1 (hex_text_iff t) Hx) as [d Hd].
  assert (Hdl : (2 * length d = length t)%nat).
  { apply unhex_denotes in Hd. unfold hex_denotes in Hd. apply (f_equal (@length Z)) in Hd. rewrite map_length, hex_length in Hd. lia. }
  exists (mkUInt CUInt160 (rev d) (num LE (firstn 4 (rev d)))).
  assert (Hi : is_UInt160 (mkUInt CUInt160 (rev d) (num LE (firstn 4 (rev d))))).
  { split; [reflexivity|]. cbn. rewrite rev_length. split; [lia|reflexivity]. }
  assert (Ht : ToString (mkUInt CUInt160 (rev d) (num LE (firstn 4 (rev d)))) = map lower t).
  { unfold ToString. cbn. rewrite rev_involutive. symmetry. apply unhex_denotes, Hd. }
  split; [|split; assumption]. apply parse160. exists t. auto.
Qed.
Print Assumptions C30_accepts_160.
Theorem C30_accepts_256 : forall s t, unprefixed s t -> length t = 64%nat -> Forall hex_digit_code t ->
  exists u, UInt256_ParseString s = Ok u /\ is_UInt256 u /\ ToString u = map lower t.
Proof.
  intros s t Hs Hl Hf.
  assert (Hx : hex_text t) by (split; [exists 32%nat; lia|exact Hf]).
  destruct (proj1 (hex_text_iff t) Hx) as [d Hd].
  assert (Hdl : (2 * length d = length t)%nat).
  { apply unhex_denotes in Hd. unfold hex_denotes in Hd. apply (f_equal (@length Z)) in Hd. rewrite map_length, hex_length in Hd. lia. }
  exists (mkUInt CUInt256 (rev d) (num LE (firstn 4 (rev d)))).
  assert (Hi : is_UInt256 (mkUInt CUInt256 (rev d) (num LE (firstn 4 (rev d))))).
  { split; [reflexivity|]. cbn. rewrite rev_length. split; [lia|reflexivity]. }
  assert (Ht : ToString (mkUInt CUInt256 (rev d) (num LE (firstn 4 (rev d)))) = map lower t).
  { unfold ToString. cbn. rewrite rev_involutive. symmetry. apply unhex_denotes, Hd. }
  split; [|split; assumption]. apply parse256. exists t. auto.
Qed.
Print Assumptions C30_accepts_256.
Example C30_example :
  unprefixed (str "0xABCDEF0123456789abcdef0123456789ABCDEF01") (str "ABCDEF0123456789abcdef0123456789ABCDEF01") /\
  (exists u, UInt160_ParseString (str "0xABCDEF0123456789abcdef0123456789ABCDEF01") = Ok u /\
     ToString u = str "abcdef0123456789abcdef0123456789abcdef01") /\
  UInt160_ParseString (str "0xABCDEF0123456789abcdef0123456789ABCD  01") = Raise PlainException.
Proof. split; [left; reflexivity|]. split; [eexists; split; vm_compute; reflexivity|vm_compute; reflexivity]. Qed.
(** every other text raises: a wrong number of characters Exception; the right number, but not pairs
    of digits with blanks between them, ValueError; pairs with blanks Exception again *)
Theorem C30_refused : parse_refused UInt160_ParseString 40 /\ parse_refused UInt256_ParseString 64.
Proof. split; [apply (refused_n CUInt160 20)|apply (refused_n CUInt256 32)]; reflexivity. Qed.
Print Assumptions C30_refused.
Example C30_refused_example : UInt160_ParseString (str "0xABCDEF0123456789abcdef0123456789ABCD  01") = Raise PlainException /\
  UInt160_ParseString (str "0xABCDEF0123456789abcdef0123456789ABCDx001") = Raise ValueError /\ spaced_pairs (str "AB  01") /\ ~ spaced_pairs (str "A B").
Proof.
  split; [vm_compute; reflexivity|]. split; [vm_compute; reflexivity|].
  split; [apply (fromhex_spaced 6 (str "AB  01")); [cbn; lia|]|rewrite <- (fromhex_spaced 3 (str "A B")) by (cbn; lia)]; cbn; [eauto|intros [d E]; discriminate].
Qed.

(** ** C31 UInt ordering follows the numeric value except for the lowest byte *)
Theorem C31_compare : forall a b, length (u_data a) = length (u_data b) ->
  CompareTo a (Some b) = Ok (sign_of (value_of a / 256 ?= value_of b / 256)).
Proof. exact CompareTo_spec. Qed.
Print Assumptions C31_compare.
Theorem C31_operators : forall a b, length (u_data a) = length (u_data b) ->
  uint_lt a (Some b) = Ok (value_of a / 256 <? value_of b / 256) /\
  uint_gt a (Some b) = Ok (value_of b / 256 <? value_of a / 256) /\
  uint_le a (Some b) = Ok (value_of a / 256 <=? value_of b / 256) /\
  uint_ge a (Some b) = Ok (value_of b / 256 <=? value_of a / 256).
Proof. exact ops_spec. Qed.
Print Assumptions C31_operators.
(** values differing only in the first stored byte compare as equal but are not == *)
Theorem C31_low_byte_ties : forall x y r cls hx hy, x <> y ->
  CompareTo (mkUInt cls (x :: r) hx) (Some (mkUInt cls (y :: r) hy)) = Ok 0 /\
  uint_eq (mkUInt cls (x :: r) hx) (Some (mkUInt cls (y :: r) hy)) = false.
Proof. exact low_byte_ties. Qed.
Print Assumptions C31_low_byte_ties.
Theorem C31_incomparable : forall a o,
  match o with None => True | Some b => length (u_data a) <> length (u_data b) end ->
  CompareTo a o = Raise PlainException /\ uint_lt a o = Raise PlainException /\ uint_gt a o = Raise PlainException /\
  uint_le a o = Raise PlainException /\ uint_ge a o = Raise PlainException.
Proof.
  intros a [b|] H; unfold uint_lt, uint_gt, uint_le, uint_ge; [rewrite CompareTo_size by exact H|]; repeat split; reflexivity.
Qed.
Print Assumptions C31_incomparable.
Example C31_example : let a := mkUInt CUIntBase [x05; x02] 517 in let b := mkUInt CUIntBase [x01; x03] 769 in
  let c := mkUInt CUIntBase [x00; x02] 512 in
  CompareTo a (Some b) = Ok (-1) /\ uint_lt a (Some b) = Ok true /\ CompareTo a (Some c) = Ok 0 /\ uint_eq a (Some c) = false.
Proof. repeat split; reflexivity. Qed.

(** ** C32 Equality and hash of UInts agree *)
Theorem C32_eq_iff_bytes : forall a b, uint_eq a (Some b) = true <-> u_data a = u_data b.
Proof. exact uint_eq_spec. Qed.
Print Assumptions C32_eq_iff_bytes.
Theorem C32_equivalence :
  (forall a, uint_eq a (Some a) = true) /\
  (forall a b, uint_eq a (Some b) = uint_eq b (Some a)) /\
  (forall a b c, uint_eq a (Some b) = true -> uint_eq b (Some c) = true -> uint_eq a (Some c) = true).
Proof.
  split; [|split].
  - intros a. apply uint_eq_spec. reflexivity.
  - intros a b. apply Bool.eq_iff_eq_true. rewrite !uint_eq_spec. split; congruence.
  - intros a b c. rewrite !uint_eq_spec. congruence.
Qed.
Print Assumptions C32_equivalence.
Theorem C32_not_equal_to_others : forall a, uint_eq a None = false.
Proof. reflexivity. Qed.
Print Assumptions C32_not_equal_to_others.
(** equal UInts, of whatever classes, constructed by the public constructors have equal hashes *)
Theorem C32_hash_agrees : forall c1 n1 v1 a c2 n2 v2 b,
  UIntBase_init c1 n1 v1 = Ok a -> UIntBase_init c2 n2 v2 = Ok b ->
  uint_eq a (Some b) = true -> uint_hash a = uint_hash b /\ uint_hash a = num LE (firstn 4 (u_data a)).
Proof.
  intros c1 n1 v1 a c2 n2 v2 b Ha Hb He. apply init_spec in Ha as (d & _ & ->). apply init_spec in Hb as (d' & _ & ->).
  apply uint_eq_spec in He. cbn in *. subst d'. split; reflexivity.
Qed.
Print Assumptions C32_hash_agrees.
Example C32_example : exists a b, UIntBase_init CUIntBase 20 (VBytes (repeat x07 20)) = Ok a /\
  new_UInt160 (VBytearray (repeat x07 20)) = Ok b /\ a <> b /\ uint_eq a (Some b) = true /\ uint_hash a = uint_hash b.
Proof. do 2 eexists. split; [reflexivity|]. split; [reflexivity|]. split; [discriminate|]. split; reflexivity. Qed.

(** ** C33 A UInt's identity survives any history unless its bytearray is mutated *)
Theorem C33_equal_hash_after_any_clean_history : forall l w, clean_history empty_world l -> w = run_uops l empty_world ->
  forall a b, In a (objs w) -> In b (objs w) ->
  uint_eq (view w a) (Some (view w b)) = true -> uint_hash (view w a) = uint_hash (view w b).
Proof. exact history_eq_hash. Qed.
Print Assumptions C33_equal_hash_after_any_clean_history.
Theorem C33_hash_follows_bytes : forall l w, clean_history empty_world l -> w = run_uops l empty_world ->
  forall o, In o (objs w) -> uint_hash (view w o) = num LE (firstn 4 (u_data (view w o))).
Proof. exact history_hash_current. Qed.
Print Assumptions C33_hash_follows_bytes.
(** a UInt built on the caller's bytearray follows its mutation, its hash does not *)
Theorem C33_shared_bytearray : forall cls n loc b w, (loc < length (cells w))%nat -> length (cell w loc) = n ->
  let w1 := ustep w (Construct cls n (ACell loc)) in
  let w2 := ustep w1 (Mutate loc b) in
  exists o, objs w2 = objs w ++ [o] /\ u_data (view w2 o) = b /\ uint_hash (view w2 o) = num LE (firstn 4 (cell w loc)).
Proof. exact mutate_stale. Qed.
Print Assumptions C33_shared_bytearray.
(** so after such a mutation equal UInts with different hashes exist, for all 20-byte contents
    that differ in their first four bytes *)
Theorem C33_equal_different_hash : forall b c, length b = 20%nat -> length c = 20%nat -> firstn 4 b <> firstn 4 c ->
  let w := run_uops [NewBytearray b; Construct CUInt160 20 (ACell 0); Mutate 0 c; Construct CUInt160 20 (ABytes c)] empty_world in
  exists o1 o2, objs w = [o1; o2] /\ uint_eq (view w o1) (Some (view w o2)) = true /\
    uint_hash (view w o1) <> uint_hash (view w o2).
Proof.
  intros b c Hb Hc Hd w. unfold w, run_uops. cbn [fold_left ustep alloc snd].
  unfold cell, zlen; cbn [cells nth length empty_world objs app Nat.ltb Nat.leb].
  rewrite Hb. cbn [Z.of_nat Z.eqb negb]. rewrite Pos.eqb_refl. cbn [negb].
  cbn [add_obj cells objs app update]. rewrite Hc. cbn [Z.of_nat Z.eqb negb]. rewrite Pos.eqb_refl. cbn [negb].
  cbn [add_obj alloc cells objs app length]. eexists _, _. split; [reflexivity|].
  split; [apply uint_eq_spec; reflexivity|]. unfold uint_hash, view; cbn [u_hash o_hash].
  change (GetHashCode b) with (GetHashCode (u_data (mkUInt CUInt160 b 0))). change (GetHashCode c) with (GetHashCode (u_data (mkUInt CUInt160 c 0))).
  rewrite !firstn_num. cbn [u_data]. intros E. apply Hd. revert E. rewrite !num_eq. unfold bytes2z, order_bytes. intros E.
  apply le2z_inj in E; [exact E|]. rewrite !firstn_length. lia.
Qed.
Print Assumptions C33_equal_different_hash.
Example C33_example :
  let l := [NewBytearray (repeat x01 20); Construct CUInt160 20 (ACell 0); NewBytearray [x00]; Mutate 1 [x05];
            Construct CUIntBase 20 (ABytes (repeat x01 20)); DeserializeAt 0 (mkStream (repeat x09 30) 0);
            Construct CUInt160 20 (ABytes (repeat x09 20))] in
  let w := run_uops l empty_world in
  clean_history empty_world l /\ length (objs w) = 3%nat /\
  (exists a b, nth_error (objs w) 0 = Some a /\ nth_error (objs w) 2 = Some b /\ a <> b /\
     uint_eq (view w a) (Some (view w b)) = true /\ uint_hash (view w b) = 151587081).
Proof.
  split.
  - cbn. repeat split. intros o [<-|[]]. discriminate.
  - split; [reflexivity|]. do 2 eexists. split; [reflexivity|]. split; [reflexivity|]. split; [discriminate|]. split; reflexivity.
Qed.

(** ** C34 Deserialize can break a UInt's size *)
Theorem C34_deserialize : forall u s, Z.of_nat (Size u) <= maxsize ->
  uint_Deserialize u s =
    (Ok (mkUInt (u_cls u) (firstn (Size u) (remaining s)) (num LE (firstn 4 (firstn (Size u) (remaining s))))),
     advance (Nat.min (Size u) (length (remaining s))) s).
Proof. exact Deserialize_any. Qed.
Print Assumptions C34_deserialize.
Theorem C34_array_of_malformed : forall r, (length r < 32)%nat -> exists u s', u_cls u = CUInt256 /\ u_data u = r /\
  ReadSerializableArray UInt256_klass 1 (mkStream (x01 :: r) 0) = (Ok [u], s').
Proof. exact array_malformed. Qed.
Print Assumptions C34_array_of_malformed.
Theorem C34_read_short_raises : forall s,
  ((length (remaining s) < 20)%nat -> exists e s', ReadUInt160 s = (Raise e, s')) /\
  ((length (remaining s) < 32)%nat -> exists e s', ReadUInt256 s = (Raise e, s')).
Proof.
  intros s. split; intros H; eexists _, _; [apply ReadUInt160_short|apply ReadUInt256_short]; exact H.
Qed.
Print Assumptions C34_read_short_raises.
Example C34_example : exists u, new_UInt160 VNone = Ok u /\
  uint_Deserialize u (mkStream [x01; x02] 0) = (Ok (mkUInt CUInt160 [x01; x02] 513), mkStream [x01; x02] 2).
Proof. eexists. split; reflexivity. Qed.
