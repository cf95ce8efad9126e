(** * L_Endian: struct's format language *)
From Coq Require Import Lia ZifyBool ZifyNat Floats.SpecFloat.
From Verif Require Import M_Py M_Float M_UInt M_Writer M_Reader M_FloatIO M_Endian S_IO S_Endian L_Bytes L_IO L_IO2.

Lemma split_app t c : split_order (t ++ [letter c]) = (fst (split_order t), snd (split_order t) ++ [letter c]).
Proof.
  destruct t as [|x r].
  - destruct c; reflexivity.
  - cbn [app split_order]. destruct (x =? 60); [reflexivity|]. destruct ((x =? 62) || (x =? 33)); [reflexivity|].
    destruct (x =? 61); [reflexivity|]. destruct (x =? 64); reflexivity.
Qed.
Lemma existsb_app_letter t c : existsb (fun x => 127 <? x) (t ++ [letter c]) = existsb (fun x => 127 <? x) t.
Proof. rewrite existsb_app. destruct c; cbn; apply Bool.orb_false_r. Qed.
Lemma prepare_text t c : prepare (t ++ [letter c]) =
  if existsb (fun x => 127 <? x) t then Raise UnicodeError
  else do lt <- items (fst (split_order t)) (snd (split_order t) ++ [letter c]) None 0; Ok (fst (split_order t), lt).
Proof. unfold prepare. rewrite existsb_app_letter, split_app. reflexivity. Qed.

Lemma letter_plain c : is_space (letter c) = false /\ is_digit (letter c) = false.
Proof. destruct c; split; reflexivity. Qed.
Lemma letter_entry o c : exists al, 1 <= al <= 8 /\ entry o (letter c) = Some (width c, al).
Proof. destruct o, c; eexists; (split; [|reflexivity]); lia. Qed.
Lemma width_pos c : 1 <= width c <= 8.
Proof. destruct c; cbn; lia. Qed.
Lemma align_ge al n : 1 <= al -> 0 <= n -> n <= align al n.
Proof.
  intros A N. unfold align. pose proof (Z.div_mod (n + al - 1) al ltac:(lia)).
  pose proof (Z.mod_pos_bound (n + al - 1) al ltac:(lia)). lia.
Qed.
Lemma align_0 al : 1 <= al -> align al 0 = 0.
Proof. intros A. unfold align. rewrite Z.div_small by lia. reflexivity. Qed.
Lemma entry_size o c sz al : entry o c = Some (sz, al) -> 1 <= sz /\ 1 <= al.
Proof.
  destruct o; unfold entry; cbv beta zeta iota;
  repeat (match goal with |- context [if ?b then _ else _] => destruct b end); intros H;
    try discriminate; inversion H; subst; lia.
Qed.

(** what the items of a text followed by the letter look like *)
Definition zero_end (t : pystr) (cnt : option Z) : Prop :=
  (exists p ds, t = p ++ ds /\ ds <> [] /\ Forall (fun c => c = 48) ds /\
     ((p = [] /\ cnt = None) \/ exists q c, p = q ++ [c] /\ ~ 48 <= c <= 57)) \/
  (cnt = Some 0 /\ Forall (fun c => c = 48) t).
Record shape (c : wcode) (t : pystr) (cnt : option Z) (size : Z) (l : list item) (total : Z) (pre : list item) (n off : Z) : Prop := {
  sh_list : l = pre ++ [mkItem (letter c) n off];
  sh_n : 0 <= n;
  sh_total : total = off + n * width c;
  sh_off : size <= off;
  sh_pre : Forall (fun i => 0 <= it_count i /\ size <= it_off i /\ it_off i + it_count i <= off /\ In (it_code i) t) pre;
  sh_zero : Forall (fun i => it_count i = 0) pre -> size = 0 -> off = 0;
  sh_end : n = 0 -> zero_end t cnt }.
Lemma zero_end_cons x t k : 0 <= k -> forall cnt, 
  (k = 0 -> Forall (fun c => c = 48) t -> zero_end (x :: t) cnt) -> zero_end t (Some k) -> zero_end (x :: t) cnt.
Proof.
  intros K cnt H [(p & ds & -> & D & F & [[_ X]|(q & y & -> & Y)])|[E F]].
  - discriminate.
  - left. exists (x :: q ++ [y]), ds. split; [reflexivity|]. split; [exact D|]. split; [exact F|]. right.
    exists (x :: q), y. split; [reflexivity|exact Y].
  - apply H; [congruence|exact F].
Qed.
Lemma zero_end_item x t cnt : ~ 48 <= x <= 57 -> zero_end t None -> zero_end (x :: t) cnt.
Proof.
  intros X [(p & ds & -> & D & F & [[-> _]|(q & y & -> & Y)])|[E F]]; [| |discriminate].
  - left. exists [x], ds. repeat split; try assumption. right. exists [], x. split; [reflexivity|exact X].
  - left. exists (x :: q ++ [y]), ds. split; [reflexivity|]. split; [exact D|]. split; [exact F|]. right.
    exists (x :: q), y. split; [reflexivity|exact Y].
Qed.

Lemma items_shape o c : forall t cnt size l total, 0 <= size -> (forall k, cnt = Some k -> 0 <= k) ->
  items o (t ++ [letter c]) cnt size = Ok (l, total) -> exists pre n off, shape c t cnt size l total pre n off.
Proof.
  destruct (letter_plain c) as [P1 P2].
  assert (Item : forall x r n size l total t cnt, 0 <= size -> 0 <= n ->
    (forall cnt size l total, 0 <= size -> (forall k, cnt = Some k -> 0 <= k) ->
      items o (t ++ [letter c]) cnt size = Ok (l, total) -> exists pre n off, shape c t cnt size l total pre n off) ->
    r = t ++ [letter c] -> is_digit x = false ->
    match entry o x with
    | None => Raise StructError
    | Some (sz, al) =>
        let off := align al size in
        if (maxsize <? off) || ((maxsize - off) / sz <? n) then Raise StructError
        else do lt <- items o r None (off + n * sz); Ok (mkItem x n off :: fst lt, snd lt)
    end = Ok (l, total) -> exists pre n off, shape c (x :: t) cnt size l total pre n off).
  { intros x r n size l total t cnt Sz N IH -> X H. destruct (entry o x) as [[sz al]|] eqn:E; [|discriminate].
    destruct (entry_size _ _ _ _ E) as [E1 E2]. cbv zeta in H. pose proof (align_ge al size E2 Sz) as A.
    destruct (_ || _); [discriminate|]. destruct (items o (t ++ [letter c]) None (align al size + n * sz)) as [[l' total']|] eqn:I; [|discriminate].
    cbn [rbind fst snd] in H. assert (n <= n * sz) by nia.
    destruct (IH None (align al size + n * sz) l' total') as (pre & m & off & [S1 S2 S3 S4 S5 S6 S7]); [lia|discriminate|exact I|].
    exists (mkItem x n (align al size) :: pre), m, off. split.
    - cbn [app]. rewrite <- S1. congruence.
    - exact S2.
    - congruence.
    - lia.
    - constructor.
      + cbn [it_count it_off it_code]. repeat split; try lia. left. reflexivity.
      + eapply Forall_impl; [|exact S5]. cbn beta. intros i (H1 & H2 & H3 & H4). repeat split; try lia. right. exact H4.
    - intros Z Sz0. apply Forall_cons_iff in Z as [Z1 Z2]. cbn [it_count] in Z1. apply S6; [exact Z2|]. rewrite Z1, Sz0, align_0 by exact E2. reflexivity.
    - intros M. apply zero_end_item; [unfold is_digit in X; lia|]. apply S7, M. }
  induction t as [|x t IH]; intros cnt size l total Sz C H.
  - cbn [app] in H. destruct (letter_entry o c) as (al & A & E).
    assert (forall n, 0 <= n -> (n = 0 -> cnt = Some 0) -> items o [letter c] cnt size = Ok (l, total) ->
      match entry o (letter c) with
      | None => Raise StructError
      | Some (sz, al) =>
          let off := align al size in
          if (maxsize <? off) || ((maxsize - off) / sz <? n) then Raise StructError
          else do lt <- items o [] None (off + n * sz); Ok (mkItem (letter c) n off :: fst lt, snd lt)
      end = Ok (l, total) -> exists pre n off, shape c [] cnt size l total pre n off) as K.
    { intros n N NZ _ K. rewrite E in K. cbv zeta in K. destruct (_ || _); [discriminate|]. cbn [items rbind fst snd] in K.
      pose proof (align_ge al size ltac:(lia) Sz). exists [], n, (align al size). split; cbn [app]; try lia; try congruence.
      - constructor.
      - intros _ ->. apply align_0. lia.
      - intros Q. right. split; [apply NZ, Q|constructor]. }
    destruct cnt as [k|].
    + apply (K k); [apply C; reflexivity|congruence|exact H|]. cbn [items] in H. rewrite P2 in H. exact H.
    + apply (K 1); [lia|lia|exact H|]. cbn [items] in H. rewrite P1, P2 in H. exact H.
  - cbn [app items] in H. destruct cnt as [k|].
    + specialize (C k eq_refl). destruct (is_digit x) eqn:D.
      * destruct (_ <? _); [discriminate|]. destruct (IH (Some (10 * k + (x - 48))) size l total) as (pre & m & off & [S1 S2 S3 S4 S5 S6 S7]);
          [exact Sz|intros k' Q; unfold is_digit in D; match type of Q with Some ?z = _ => assert (k' = z) as -> by congruence end; lia|exact H|].
        exists pre, m, off. split; try assumption.
        -- eapply Forall_impl; [|exact S5]. cbn beta. intros i (H1 & H2 & H3 & H4). repeat split; try lia. right. exact H4.
        -- intros M. unfold is_digit in D. apply (zero_end_cons x t (10 * k + (x - 48))); [lia| |apply S7, M].
           intros Q F. right. split; [f_equal; lia|]. constructor; [lia|exact F].
      * eapply Item; try eassumption; reflexivity.
    + destruct (is_space x) eqn:W.
      * destruct (IH None size l total Sz ltac:(discriminate) H) as (pre & m & off & [S1 S2 S3 S4 S5 S6 S7]).
        exists pre, m, off. split; try assumption.
        -- eapply Forall_impl; [|exact S5]. cbn beta. intros i (H1 & H2 & H3 & H4). repeat split; try lia. right. exact H4.
        -- intros M. apply zero_end_item; [unfold is_space in W; lia|]. apply S7, M.
      * destruct (is_digit x) eqn:D.
        -- destruct (IH (Some (x - 48)) size l total) as (pre & m & off & [S1 S2 S3 S4 S5 S6 S7]);
             [exact Sz|intros k' Q; unfold is_digit in D; match type of Q with Some ?z = _ => assert (k' = z) as -> by congruence end; lia|exact H|].
           exists pre, m, off. split; try assumption.
           ++ eapply Forall_impl; [|exact S5]. cbn beta. intros i (H1 & H2 & H3 & H4). repeat split; try lia. right. exact H4.
           ++ intros M. unfold is_digit in D. apply (zero_end_cons x t (x - 48)); [lia| |apply S7, M].
              intros Q F. left. exists [], (x :: t). split; [reflexivity|]. split; [discriminate|]. split; [constructor; [lia|exact F]|]. left. split; reflexivity.
        -- eapply (Item x _ 1); try eassumption; [lia|reflexivity].
Qed.
