(** * P_Overwrite: property C102 (writes in the middle of a stream).  See S_Overwrite. *)
From Coq Require Import String Lia.
From Verif Require Import M_Py M_Float M_FloatIO M_UInt M_Writer M_Reader S_IO S_IO2 S_Msg S_Overwrite L_Bytes L_IO L_Overwrite.

(** ** C102 A write overwrites exactly its own bytes, wherever the stream stands *)

(** Outcome, return value and bytes are the same on every stream; only those bytes change. *)
Theorem C102_anywhere : forall c, item_free c -> exists r d, forall s, exists s',
  returned c s = (r, s') /\ overwritten s d s'.
Proof. exact anywhere. Qed.
Print Assumptions C102_anywhere.

(** The same for any history of calls, raising or not. *)
Theorem C102_history : forall l, Forall item_free l -> exists d, forall s, overwritten s d (after_any l s).
Proof. exact history. Qed.
Print Assumptions C102_history.

(** [overwritten] says everything about the new stream. *)
Theorem C102_determined : forall s d s1 s2, overwritten s d s1 -> overwritten s d s2 -> s1 = s2.
Proof. exact over_unique. Qed.
Print Assumptions C102_determined.

(** At the end of the stream overwriting is appending, so what the properties about appending (C01,
    C04, C08, ...) say about the bytes and the return value holds at every position. *)
Theorem C102_at_end : forall pre d s', overwritten (at_end pre) d s' <-> s' = at_end (pre ++ d).
Proof. intros. apply over_end. Qed.
Print Assumptions C102_at_end.

Theorem C102_everywhere : forall c ret enc, item_free c -> writes (returned c) ret enc ->
  forall s, exists s', returned c s = (Ok ret, s') /\ overwritten s enc s'.
Proof. intros c ret enc H. apply everywhere, fr_returned, H. Qed.
Print Assumptions C102_everywhere.

(** Two writes in a row are one write of both encodings. *)
Theorem C102_sequence : forall s a b s1 s2, overwritten s a s1 -> overwritten s1 b s2 -> overwritten s (a ++ b) s2.
Proof. exact over_app. Qed.
Print Assumptions C102_sequence.

(** Going back and rewriting one field of a fixed-width kind changes this field of the message and
    nothing else. *)
Theorem C102_patch : forall before k v v' after pre,
  Forall carriable before -> carriable (k, v) -> carriable (k, v') -> Forall carriable after -> fixed_width k ->
  exists s0 s1 s2 s3 out,
  write_message before (at_end pre) = (Ok tt, s0) /\
  write_message ((k, v) :: after) s0 = (Ok tt, s1) /\
  write_item (k, v') (seek (position s0) s1) = (Ok tt, s2) /\
  read_message (map fst (before ++ (k, v) :: after)) (seek (List.length pre) s2) = (Ok out, s3) /\
  Forall2 comes_back (before ++ (k, v') :: after) out /\
  List.length (content s2) = List.length (content s1) /\ position s3 = List.length (content s2).
Proof. intros. apply patch; assumption. Qed.
Print Assumptions C102_patch.

(** A shorter encoding leaves the tail of the old one behind, where the next field is expected. *)
Theorem C102_shorter_leaves_tail : forall a b rest, (List.length b < List.length a)%nat ->
  exists s, overwritten (mkStream (a ++ rest) 0) b s /\ remaining s = skipn (List.length b) a ++ rest.
Proof.
  intros a b rest H. exists (put b (mkStream (a ++ rest) 0)). split; [apply put_over|]. destruct b as [|b0 b']. { reflexivity. }
  unfold remaining. rewrite put_eq by discriminate. cbn [content position Nat.add firstn Nat.sub repeat app].
  set (b := b0 :: b') in *. change (b0 :: b' ++ skipn (List.length b) (a ++ rest)) with (b ++ skipn (List.length b) (a ++ rest)).
  clearbody b. rewrite skipn_app_exact. rewrite skipn_app.
  replace (List.length b - List.length a)%nat with O by lia. reflexivity.
Qed.
Print Assumptions C102_shorter_leaves_tail.

Example C102_example :
  returned (AWrite (WInt U16 258 BE)) (mkStream [x10; x11; x12; x13; x14] 1) = (Ok (Some 2), mkStream [x10; x01; x02; x13; x14] 3) /\
  returned (AWrite (WInt U16 258 BE)) (mkStream [x10] 3) = (Ok (Some 2), mkStream [x10; x00; x00; x01; x02] 5) /\
  returned (AWrite (WVarInt (VInt (2 ^ 64)) LE)) (mkStream [x10; x11] 0) = (Raise StructError, mkStream [xff; x11] 1) /\
  item_free (AWrite (WArray UInt256_klass None)) /\
  carriable (KInt U32 LE, XInt 7) /\ fixed_width (KInt U32 LE) /\
  content (snd (returned (AWrite (WVarString (VStr (str "z")))) (mkStream (x03 :: bstr "abc") 0))) = x01 :: bstr "zbc".
Proof.
  split; [vm_compute; reflexivity|]. split; [vm_compute; reflexivity|]. split; [vm_compute; reflexivity|].
  split. { intros x. apply free_iff, fr_Serialize. }
  split; [cbn; lia|]. split; [exact I|]. vm_compute. reflexivity.
Qed.
Print Assumptions C102_example.
