(** * L_Nep2b: the AES of M_Nep2 is the one of S_Nep2 *)
From Coq Require Import Lia Bool.
From Verif Require Import M_Py M_Hash M_Nep2 L_Bytes L_Nep2 S_Nep2.

(** ** the field *)
Lemma gf_one a : byte_z a -> gf_product a 1 a.
Proof.
  intros B. split; [exact B|]. exists 0. split; [lia|]. unfold poly_product. cbn [map fold_right]. 
  change (Z.testbit 1 0) with true. change (Z.testbit 1 1) with false. change (Z.testbit 1 2) with false. change (Z.testbit 1 3) with false. change (Z.testbit 1 4) with false. change (Z.testbit 1 5) with false. change (Z.testbit 1 6) with false. change (Z.testbit 1 7) with false.
  rewrite !Z.testbit_0_l. rewrite !Z.lxor_0_r. cbv iota. change (2 ^ 0) with 1. lia.
Qed.
Lemma poly_two a : poly_product a 2 = 2 * a.
Proof.
  unfold poly_product. cbn [map fold_right].
  change (Z.testbit 2 0) with false. change (Z.testbit 2 1) with true. change (Z.testbit 2 2) with false. change (Z.testbit 2 3) with false. change (Z.testbit 2 4) with false. change (Z.testbit 2 5) with false. change (Z.testbit 2 6) with false. change (Z.testbit 2 7) with false.
  cbv iota. rewrite !Z.lxor_0_r, Z.lxor_0_l. change (2 ^ 1) with 2. lia.
Qed.
Lemma poly_three a : poly_product a 3 = Z.lxor a (2 * a).
Proof.
  unfold poly_product. cbn [map fold_right].
  change (Z.testbit 3 0) with true. change (Z.testbit 3 1) with true. change (Z.testbit 3 2) with false. change (Z.testbit 3 3) with false. change (Z.testbit 3 4) with false. change (Z.testbit 3 5) with false. change (Z.testbit 3 6) with false. change (Z.testbit 3 7) with false.
  cbv iota. rewrite !Z.lxor_0_r. change (2 ^ 1) with 2. change (2 ^ 0) with 1. f_equal; lia.
Qed.
Lemma xtime_poly a : exists q, 0 <= q < 256 /\ 2 * a = Z.lxor (xtime a) (poly_product 0x11b q).
Proof.
  unfold xtime. exists (if Z.testbit a 7 then 1 else 0). split; [destruct (Z.testbit a 7); lia|].
  replace (poly_product 283 (if Z.testbit a 7 then 1 else 0)) with (if Z.testbit a 7 then 283 else 0) by (destruct (Z.testbit a 7); reflexivity).
  rewrite Z.lxor_assoc, Z.lxor_nilpotent, Z.lxor_0_r. reflexivity.
Qed.
Lemma gf_two a : byte_z a -> gf_product a 2 (xtime a).
Proof. intros B. split; [exact (xtime_range a B)|]. rewrite poly_two. apply xtime_poly. Qed.
Lemma gf_three a : byte_z a -> gf_product a 3 (Z.lxor (xtime a) a).
Proof.
  intros B. split; [exact (lxor_byte _ _ (xtime_range a B) B)|]. rewrite poly_three. destruct (xtime_poly a) as (q & Q & E). exists q. split; [exact Q|]. rewrite E.
  rewrite (Z.lxor_comm (xtime a) a), Z.lxor_assoc. reflexivity.
Qed.

(** ** the S-box *)
(** the inverses, and the quotients of the products by 0x11b *)
Definition gf_inverses : list Z := [
  0;1;141;246;203;82;123;209;232;79;41;192;176;225;229;199;
  116;180;170;75;153;43;96;95;88;63;253;204;255;64;238;178;
  58;110;90;241;85;77;168;201;193;10;152;21;48;68;162;194;
  44;69;146;108;243;57;102;66;242;53;32;111;119;187;89;25;
  29;254;55;103;45;49;245;105;167;100;171;19;84;37;233;9;
  237;92;5;202;76;36;135;191;24;62;34;240;81;236;97;23;
  22;94;175;211;73;166;54;67;244;71;145;223;51;147;33;59;
  121;183;151;133;16;181;186;60;182;112;208;6;161;250;129;130;
  131;126;127;128;150;115;190;86;155;158;149;217;247;2;185;164;
  222;106;50;109;216;138;132;114;42;20;159;136;249;220;137;154;
  251;124;46;195;143;184;101;72;38;200;18;74;206;231;210;98;
  12;224;31;239;17;117;120;113;165;142;118;61;189;188;134;87;
  11;40;47;163;218;212;228;15;169;39;83;4;27;252;172;230;
  122;7;174;99;197;219;226;234;148;139;196;213;157;248;144;107;
  177;13;214;235;198;14;207;173;8;78;215;227;93;80;30;179;
  91;35;56;52;104;70;3;140;221;156;125;160;205;26;65;28].
Fixpoint poly_quotient (n : nat) (a q : Z) : Z :=
  match n with
  | O => q
  | S n => if Z.testbit a (8 + Z.of_nat n) then poly_quotient n (Z.lxor a (0x11b * 2 ^ Z.of_nat n)) (q + 2 ^ Z.of_nat n) else poly_quotient n a q
  end.
Definition affine_ok (i s n : Z) : bool :=
  Bool.eqb (Z.testbit s n) (xorb (Z.testbit i n) (xorb (Z.testbit i ((n + 4) mod 8)) (xorb (Z.testbit i ((n + 5) mod 8))
      (xorb (Z.testbit i ((n + 6) mod 8)) (xorb (Z.testbit i ((n + 7) mod 8)) (Z.testbit 0x63 n)))))).
Definition sbox_ok (x : Z) : bool :=
  let i := nth (Z.to_nat x) gf_inverses 0 in
  let p := poly_product x i in
  let q := poly_quotient 7 p 0 in
  (0 <=? i) && (i <? 256) && (0 <=? q) && (q <? 256) &&
  ((x =? 0) && (i =? 0) || (p =? Z.lxor 1 (poly_product 0x11b q))) &&
  forallb (affine_ok i (sub_byte x)) [0; 1; 2; 3; 4; 5; 6; 7].
Lemma sbox_all_ok : forallb (fun n => sbox_ok (Z.of_nat n)) (seq 0 256) = true.
Proof. vm_compute. reflexivity. Qed.
Lemma sbox_spec x : byte_z x -> sbox_is x (sub_byte x).
Proof.
  intros B. pose proof (all_bytes sbox_ok sbox_all_ok x B) as O. unfold sbox_ok in O. cbv zeta in O.
  set (i := nth (Z.to_nat x) gf_inverses 0) in *. set (p := poly_product x i) in *. set (q := poly_quotient 7 p 0) in *.
  rewrite !andb_true_iff in O. destruct O as (((((I1 & I2) & Q1) & Q2) & P) & A). split; [exact (sub_byte_range x B)|]. exists i. split; [lia|]. split.
  - rewrite orb_true_iff in P. destruct P as [P|P]; [left; lia|right]. split; [lia|]. exists q. split; [lia|]. apply Z.eqb_eq in P. exact P.
  - intros n Hn. rewrite forallb_forall in A. apply eqb_prop. apply A. clear - Hn. assert (n = 0 \/ n = 1 \/ n = 2 \/ n = 3 \/ n = 4 \/ n = 5 \/ n = 6 \/ n = 7) as D by lia. cbn. intuition congruence.
Qed.

(** ** the steps *)
Lemma nth_map_byte f s i : (i < length s)%nat -> nth i (map f s) 0 = f (nth i s 0).
Proof. intros L. rewrite (nth_indep _ 0 (f 0)) by (rewrite map_length; exact L). apply map_nth. Qed.
Lemma substituted_ok s : state s -> substituted s (map sub_byte s).
Proof.
  intros (L & F). split; [rewrite map_length; exact L|]. intros i Hi. rewrite nth_map_byte by lia. apply sbox_spec, nth_byte, F.
Qed.
Ltac four n := destruct n as [|[|[|[|n]]]]; [| | | |exfalso; lia].
Lemma rows_shifted_ok s : state s -> rows_shifted s (shift_rows s).
Proof.
  intros (L & _). split; [reflexivity|]. intros r c Hr Hc. destruct (list16 s L) as (a0 & a1 & a2 & a3 & a4 & a5 & a6 & a7 & a8 & a9 & b0 & b1 & b2 & b3 & b4 & b5 & ->).
  four r; four c; reflexivity.
Qed.
Lemma mixed_column a b c d r : byte_z a -> byte_z b -> byte_z c -> byte_z d -> (r < 4)%nat -> exists p0 p1 p2 p3,
  gf_product a (coefficient r 0) p0 /\ gf_product b (coefficient r 1) p1 /\ gf_product c (coefficient r 2) p2 /\ gf_product d (coefficient r 3) p3 /\
  nth r (mix_column a b c d) 0 = Z.lxor p0 (Z.lxor p1 (Z.lxor p2 p3)).
Proof.
  intros A B C D R. pose proof gf_one as g1. pose proof gf_two as g2. pose proof gf_three as g3.
  four r; cbn [nth mix_column]; unfold xor4, coefficient; cbn [nth]; rewrite Z.lxor_assoc; do 4 eexists; (split; [|split; [|split; [|split; [|reflexivity]]]]); auto.
Qed.
Lemma columns_mixed_ok s : state s -> columns_mixed s (mix_columns s).
Proof.
  intros S. split; [exact (proj1 (mix_state s S))|]. destruct S as (L & F). intros r c Hr Hc.
  assert (E : at_rc (mix_columns s) r c = nth r (mix_column (at_rc s 0 c) (at_rc s 1 c) (at_rc s 2 c) (at_rc s 3 c)) 0).
  { destruct (list16 s L) as (a0 & a1 & a2 & a3 & a4 & a5 & a6 & a7 & a8 & a9 & b0 & b1 & b2 & b3 & b4 & b5 & ->). unfold mix_columns, columns, at_rc. cbn [flat_map nth Nat.add]. four r; four c; reflexivity. }
  rewrite E. apply mixed_column; try exact Hr; apply nth_byte, F.
Qed.
Lemma zxor_nth a b i : length a = length b -> (i < length a)%nat -> nth i (zxor a b) 0 = Z.lxor (nth i a 0) (nth i b 0).
Proof.
  revert b i. induction a as [|x a IH]; intros [|y b] i L Hi; try discriminate L; [cbn in Hi; lia|]. destruct i as [|i]; [reflexivity|]. unfold zxor in *. cbn [combine map nth]. apply IH; cbn in *; lia.
Qed.
Lemma added_ok s k : state s -> state k -> added s k (zxor s k).
Proof. intros (Ls & _) (Lk & _). split; [rewrite zxor_length; lia|]. intros i Hi. apply zxor_nth; lia. Qed.

(** ** the key schedule *)
Lemma rcon_byte n a : rcon_is n a -> byte_z a.
Proof. destruct 1 as [|n a b _ (B & _)]; [unfold byte_z; lia|exact B]. Qed.
(** what key_schedule says of word number i *)
Definition next_word (nk : nat) (w : nat -> list Z) (i : nat) : Prop :=
  exists t,
     (forall j, (j < 4)%nat -> nth j (w i) 0 = Z.lxor (nth j (w (i - nk)%nat) 0) (nth j t 0)) /\
     ((i mod nk = 0)%nat -> exists rc, rcon_is (i / nk)%nat rc /\ forall j, (j < 4)%nat ->
        exists s, sbox_is (nth ((j + 1) mod 4)%nat (w (i - 1)%nat) 0) s /\ nth j t 0 = Z.lxor s (if (j =? 0)%nat then rc else 0)) /\
     ((i mod nk = 4)%nat -> nk = 8%nat -> forall j, (j < 4)%nat -> sbox_is (nth j (w (i - 1)%nat) 0) (nth j t 0)) /\
     ((i mod nk <> 0)%nat -> ~ ((i mod nk = 4)%nat /\ nk = 8%nat) -> forall j, (j < 4)%nat -> nth j t 0 = nth j (w (i - 1)%nat) 0).
Lemma nth_skipn_add {A} (l : list A) k j d : nth j (skipn k l) d = nth (k + j) l d.
Proof. revert k. induction l as [|x l IH]; intros [|k]; cbn [skipn Nat.add]; try reflexivity; [destruct j; reflexivity|]. cbn [nth]. apply IH. Qed.
Lemma skipn_skipn_add {A} (l : list A) a b : skipn a (skipn b l) = skipn (a + b) l.
Proof. revert l. induction b as [|b IH]; intros l; [rewrite Nat.add_0_r; reflexivity|]. rewrite <- plus_n_Sm. destruct l; [rewrite !skipn_nil; reflexivity|]. cbn [skipn]. apply IH. Qed.
Lemma last_skipn {A} (l : list A) k d : (k < length l)%nat -> last (skipn k l) d = nth (length l - 1) l d.
Proof.
  intros L. assert (N : skipn k l <> []) by (intros E; apply (f_equal (@length A)) in E; rewrite skipn_length in E; cbn in E; lia).
  assert (Hl : forall (m : list A), m <> [] -> last m d = nth (length m - 1) m d).
  { clear. intros m. induction m as [|x m IH]; [congruence|]. intros _. destruct m as [|y m]; [reflexivity|]. rewrite <- (app_nil_l (y :: m)) at 1. change (last (x :: [] ++ y :: m) d) with (last (y :: m) d). rewrite IH by discriminate. cbn [length]. replace (S (S (length m)) - 1)%nat with (S (S (length m) - 1)) by lia. reflexivity. }
  rewrite (Hl _ N), skipn_length, nth_skipn_add. f_equal. lia.
Qed.
Lemma hd_skipn {A} (l : list A) k d : hd d (skipn k l) = nth k l d.
Proof. revert k. induction l as [|x l IH]; intros [|k]; cbn; auto. Qed.
Lemma ceil_step i nk : (0 < nk)%nat -> (i mod nk = 0)%nat -> ((i + nk - 1) / nk = i / nk)%nat /\ ((S i + nk - 1) / nk = S (i / nk))%nat.
Proof.
  intros P M. pose proof (Nat.div_mod_eq i nk) as E. rewrite M in E. split.
  - symmetry. apply (Nat.div_unique _ _ _ (nk - 1)); lia.
  - symmetry. apply (Nat.div_unique _ _ _ 0); lia.
Qed.
Lemma ceil_stay i nk : (0 < nk)%nat -> (i mod nk <> 0)%nat -> ((S i + nk - 1) / nk = (i + nk - 1) / nk)%nat.
Proof.
  intros P M. pose proof (Nat.div_mod_eq i nk) as E. pose proof (Nat.mod_upper_bound i nk ltac:(lia)).
  transitivity (S (i / nk)); [symmetry; apply (Nat.div_unique _ _ _ (i mod nk)); lia|apply (Nat.div_unique _ _ _ (i mod nk - 1)); lia].
Qed.
Lemma word_nth w j : word w -> byte_z (nth j w 0).
Proof. intros (_ & F). apply nth_byte, F. Qed.
Lemma expand_schedule nk : (nk = 4 \/ nk = 6 \/ nk = 8)%nat -> forall n rcon hist, (nk <= length hist)%nat -> rcon_is ((length hist + nk - 1) / nk)%nat rcon -> Forall word hist ->
  forall m, (length hist <= m < length hist + n)%nat ->
  next_word nk (fun j => nth j (hist ++ expand_key nk n (length hist) rcon (skipn (length hist - nk) hist)) []) m.
Proof.
  intros K n. induction n as [|n IH]; intros rcon hist Lh R F m Hm; [lia|]. cbn [expand_key]. set (i := length hist) in *.
  assert (Lsk : (i - nk < length hist)%nat) by lia. rewrite (last_skipn hist (i - nk) [] Lsk), hd_skipn. fold i.
  set (temp := nth (i - 1) hist []). set (temp' := if (i mod nk =? 0)%nat then _ else _). set (w := zxor (nth (i - nk) hist []) temp').
  assert (Wt : word temp) by (apply (proj1 (Forall_forall _ _) F), nth_In; lia).
  assert (Wo : word (nth (i - nk) hist [])) by (apply (proj1 (Forall_forall _ _) F), nth_In; lia).
  assert (Wr : word [rcon; 0; 0; 0]). { split; [reflexivity|]. repeat apply Forall_cons; try apply Forall_nil; [exact (rcon_byte _ _ R)|unfold byte_z; lia..]. }
  assert (Wt' : word temp'). { unfold temp'. destruct (i mod nk =? 0)%nat; [apply zxor_word; [apply sub_word, rot_word, Wt|exact Wr]|]. destruct ((6 <? nk)%nat && (i mod nk =? 4)%nat); [apply sub_word, Wt|exact Wt]. }
  assert (Ww : word w) by (apply zxor_word; assumption).
  assert (Es : skipn 1 (skipn (i - nk) hist) ++ [w] = skipn (S i - nk) (hist ++ [w])).
  { rewrite skipn_skipn_add. rewrite skipn_app. replace (S i - nk - length hist)%nat with 0%nat by (fold i; lia). cbn [skipn]. f_equal. f_equal. lia. }
  rewrite Es. replace (hist ++ w :: expand_key nk n (S i) (if (i mod nk =? 0)%nat then xtime rcon else rcon) (skipn (S i - nk) (hist ++ [w])))
    with ((hist ++ [w]) ++ expand_key nk n (S i) (if (i mod nk =? 0)%nat then xtime rcon else rcon) (skipn (S i - nk) (hist ++ [w]))) by (rewrite <- app_assoc; reflexivity).
  assert (Lw : length (hist ++ [w]) = S i) by (rewrite app_length; cbn [length]; fold i; lia).
  destruct (Nat.eq_dec m i) as [->|Ne].
  - unfold next_word. cbv beta. set (rest := expand_key _ _ _ _ _). clearbody rest.
    assert (N0 : nth i ((hist ++ [w]) ++ rest) [] = w) by (rewrite app_nth1 by lia; rewrite app_nth2 by (fold i; lia); fold i; rewrite Nat.sub_diag; reflexivity).
    assert (N1 : nth (i - 1) ((hist ++ [w]) ++ rest) [] = temp) by (rewrite !app_nth1 by (fold i; lia); reflexivity).
    assert (N2 : nth (i - nk) ((hist ++ [w]) ++ rest) [] = nth (i - nk) hist []) by (rewrite !app_nth1 by (fold i; lia); reflexivity).
    rewrite N0, N1, N2. clear N0 N1 N2.
    exists temp'. split; [|split; [|split]].
    + intros j Hj. unfold w. apply zxor_nth; [rewrite (proj1 Wo); symmetry; exact (proj1 Wt')|rewrite (proj1 Wo); exact Hj].
    + intros M. exists rcon. split; [destruct (ceil_step i nk ltac:(lia) M) as (<- & _); exact R|]. intros j Hj. exists (sub_byte (nth ((j + 1) mod 4) temp 0)).
      split; [apply sbox_spec, word_nth, Wt|]. unfold temp'. rewrite (proj2 (Nat.eqb_eq _ _) M). rewrite zxor_nth; [|rewrite map_length, (proj1 (rot_word _ Wt)); reflexivity|rewrite map_length, (proj1 (rot_word _ Wt)); exact Hj]. f_equal.
      * rewrite nth_map_byte by (rewrite (proj1 (rot_word _ Wt)); exact Hj). f_equal. destruct temp as [|a [|b [|c [|d [|]]]]]; try discriminate (proj1 Wt). four j; reflexivity.
      * four j; reflexivity.
    + intros M K8 j Hj. unfold temp'. rewrite (proj2 (Nat.eqb_neq _ 0)) by lia. rewrite K8. change (6 <? 8)%nat with true. rewrite <- K8 at 1. rewrite (proj2 (Nat.eqb_eq _ _) M). cbn [andb].
      rewrite nth_map_byte by (rewrite (proj1 Wt); exact Hj). apply sbox_spec, word_nth, Wt.
    + intros M0 M4 j Hj. unfold temp'. rewrite (proj2 (Nat.eqb_neq _ 0) M0). destruct ((6 <? nk)%nat && (i mod nk =? 4)%nat) eqn:C; [|reflexivity]. exfalso. apply M4. apply andb_true_iff in C. destruct C as (C1 & C2). apply Nat.ltb_lt in C1. apply Nat.eqb_eq in C2. split; [exact C2|lia].
  - specialize (IH (if (i mod nk =? 0)%nat then xtime rcon else rcon) (hist ++ [w])). rewrite Lw in IH. apply IH; [lia| |apply Forall_app; split; [exact F|repeat constructor; apply Ww]|lia].
    destruct (i mod nk =? 0)%nat eqn:M.
    + apply Nat.eqb_eq in M. destruct (ceil_step i nk ltac:(lia) M) as (C1 & C2). rewrite C2. rewrite C1 in R. apply (rcon_next _ rcon); [exact R|]. apply gf_two. exact (rcon_byte _ _ R).
    + apply Nat.eqb_neq in M. rewrite ceil_stay by (try exact M; lia). exact R.
Qed.
Lemma nth_concat {A} n (bs : list (list A)) r i d : Forall (fun b => length b = n) bs -> (i < n)%nat -> (r < length bs)%nat -> nth (n * r + i) (concat bs) d = nth i (nth r bs []) d.
Proof.
  intros F Hi. revert r. induction F as [|b bs L F IH]; intros r Hr; [cbn in Hr; lia|]. cbn [concat]. destruct r as [|r].
  - rewrite Nat.mul_0_r. cbn [Nat.add nth]. apply app_nth1. lia.
  - cbn [nth]. rewrite app_nth2 by lia. rewrite <- IH by (cbn in Hr; lia). f_equal. lia.
Qed.
Lemma round_keys_schedule key nk : (nk = 4 \/ nk = 6 \/ nk = 8)%nat -> length key = (4 * nk)%nat ->
  exists w, key_schedule nk key w /\ forall r i, (r < nk + 7)%nat -> (i < 16)%nat -> nth i (nth r (round_keys key) []) 0 = nth (i mod 4)%nat (w (4 * r + i / 4)%nat) 0.
Proof.
  intros K L. unfold round_keys. set (w := blocks_of 4 (length key) (map b2z key)).
  destruct (blocks_exact 4 nk ltac:(lia) (length key) (map b2z key) ltac:(rewrite map_length; exact L) ltac:(lia)) as (B & C & D). fold w in B, C, D.
  pose proof (blocks_Forall byte_z 4 (length key) _ (bytes_z key)) as Z. fold w in Z. clearbody w. rewrite D.
  assert (W : Forall word w). { apply Forall_forall. intros x I. split; [exact (proj1 (Forall_forall _ _) B _ I)|exact (proj1 (Forall_forall _ _) Z _ I)]. }
  destruct (expand_words nk (4 * (nk + 7) - nk) nk 1 w ltac:(unfold byte_z; lia) ltac:(intros ->; cbn in D; lia) W) as (E & F).
  pose proof (expand_schedule nk K (4 * (nk + 7) - nk) 1 w ltac:(lia)) as X. rewrite D in X. rewrite Nat.sub_diag in X. cbn [skipn] in X.
  specialize (X ltac:(replace ((nk + nk - 1) / nk)%nat with 1%nat; [constructor|]; apply (Nat.div_unique _ _ _ (nk - 1)); lia) W).
  set (all := w ++ expand_key nk (4 * (nk + 7) - nk) nk 1 w) in *. assert (A : Forall word all) by (apply Forall_app; split; assumption).
  assert (La : length all = (4 * (nk + 7))%nat) by (unfold all; rewrite app_length, F, D; lia).
  assert (A4 : Forall (fun x => length x = 4%nat) all) by (eapply Forall_impl; [|exact A]; intros x Y; apply Y).
  assert (Lc : length (concat all) = (16 * (nk + 7))%nat) by (rewrite (concat_length4 4 all A4); lia).
  destruct (blocks_exact 16 (nk + 7) ltac:(lia) (nk + 7)%nat (concat all) Lc ltac:(lia)) as (G & Gc & Kn).
  exists (fun j => nth j all []). split.
  - split; [|intros i Hi; apply X; lia]. intros i Hi j Hj. unfold all. rewrite app_nth1 by lia. rewrite <- (nth_concat 4) by (try assumption; lia). rewrite C.
    rewrite (nth_indep _ 0 (b2z x00)) by (rewrite map_length; lia). apply map_nth.
  - intros r i Hr Hi. rewrite <- (nth_concat 16) by (try assumption; lia). rewrite Gc. pose proof (Nat.div_mod_eq i 4). pose proof (Nat.mod_upper_bound i 4 ltac:(lia)).
    rewrite <- (nth_concat 4) by (try assumption; lia). f_equal. lia.
Qed.

(** ** one block *)
Lemma nth_removelast {A} (l : list A) i d : (i < length l - 1)%nat -> nth i (removelast l) d = nth i l d.
Proof.
  revert i. induction l as [|x l IH]; intros i Hi; [cbn in Hi; lia|]. destruct l as [|y l]; [cbn in Hi; lia|]. cbn [removelast]. destruct i as [|i]; [reflexivity|]. cbn [nth]. apply (IH i). cbn [length] in *. lia.
Qed.
Lemma removelast_length {A} (l : list A) : length (removelast l) = (length l - 1)%nat.
Proof. destruct l as [|x l]; [reflexivity|]. rewrite removelast_firstn_len, firstn_length. cbn [length]. lia. Qed.
Lemma last_nth {A} (l : list A) d : last l d = nth (length l - 1) l d.
Proof. destruct l as [|x l]; [reflexivity|]. exact (last_skipn (x :: l) 0 d ltac:(cbn; lia)). Qed.
Lemma fold_firstn {A B} (f : A -> B -> A) l s r d : (r < length l)%nat -> fold_left f (firstn (r + 1) l) s = f (fold_left f (firstn r l) s) (nth r l d).
Proof.
  revert s r. induction l as [|x l IH]; intros s r Hr; [cbn in Hr; lia|]. destruct r as [|r]; [reflexivity|]. cbn [Nat.add firstn fold_left nth]. apply IH. cbn in Hr. lia.
Qed.
Lemma aes_block_ok key nk block : (nk = 4 \/ nk = 6 \/ nk = 8)%nat -> length key = (4 * nk)%nat -> length block = 16%nat ->
  aes_block nk key block (block_fun (aes_cipher (round_keys key)) block).
Proof.
  intros K L Lb. destruct (round_keys_schedule key nk K L) as (w & Ws & Wk). destruct (round_keys_ok key nk ltac:(lia) L) as (Rs & Rl).
  unfold block_fun. set (ks := round_keys key) in *. clearbody ks. assert (N : ks <> []) by (intros ->; cbn in Rl; lia).
  destruct (ends ks Rs N) as (Hd & La & Mi). pose proof (block_state block Lb) as Sb. pose proof (cipher_state ks _ Rs N Sb) as Sc.
  assert (S0 : state (zxor (map b2z block) (hd [] ks))) by (apply zxor_state; assumption).
  set (mid := removelast (tl ks)) in *. assert (Lm : length mid = (nk + 5)%nat) by (unfold mid; rewrite removelast_length; destruct ks; cbn [tl length] in *; lia).
  set (s := fun r => fold_left aes_round (firstn r mid) (zxor (map b2z block) (hd [] ks))).
  assert (Ss : forall r, state (s r)). { intros r. apply fold_state; [exact aes_round_state| |exact S0]. apply Forall_forall. intros x I. apply (proj1 (Forall_forall _ _) Mi). rewrite <- (firstn_skipn r). apply in_or_app. left. exact I. }
  assert (Km : forall r, (r < nk + 5)%nat -> nth r mid [] = nth (r + 1) ks []).
  { intros r Hr. unfold mid. rewrite nth_removelast by (destruct ks; cbn [tl length] in *; lia). destruct ks as [|k0 ks]; [congruence|]. rewrite Nat.add_1_r. reflexivity. }
  assert (Kr : forall r, (r < nk + 7)%nat -> state (nth r ks [])) by (intros r Hr; apply (proj1 (Forall_forall _ _) Rs), nth_In; lia).
  exists w, (fun r => nth r ks []), s, (map sub_byte (s (nk + 5)%nat)), (shift_rows (map sub_byte (s (nk + 5)%nat))).
  split; [exact Ws|]. split; [exact Wk|]. split; [|split; [|split; [|split]]].
  - unfold s. cbn [firstn fold_left]. replace (nth 0 ks []) with (hd [] ks) by (destruct ks; reflexivity). apply added_ok; assumption.
  - intros r Hr. exists (map sub_byte (s r)), (shift_rows (map sub_byte (s r))), (mix_columns (shift_rows (map sub_byte (s r)))).
    split; [apply substituted_ok, Ss|]. split; [apply rows_shifted_ok, sub_state, Ss|]. split; [apply columns_mixed_ok, shift_state, sub_state, Ss|].
    assert (E : s (r + 1)%nat = aes_round (s r) (nth (r + 1) ks [])) by (unfold s; rewrite (fold_firstn aes_round mid _ r []) by lia; rewrite Km by lia; reflexivity).
    rewrite E. apply added_ok; [apply mix_state, shift_state, sub_state, Ss|apply Kr; lia].
  - apply substituted_ok, Ss.
  - apply rows_shifted_ok, sub_state, Ss.
  - rewrite map_b2z_z2b by exact (proj2 Sc). unfold aes_cipher, aes_last. fold mid.
    assert (E : fold_left aes_round mid (zxor (map b2z block) (hd [] ks)) = s (nk + 5)%nat) by (unfold s; rewrite <- Lm, firstn_all; reflexivity). rewrite E.
    replace (last ks []) with (nth (nk + 6) ks []) by (rewrite last_nth; f_equal; lia). apply added_ok; [apply shift_state, sub_state, Ss|apply Kr; lia].
Qed.
Lemma AES_encrypt_spec key nk data : (nk = 4 \/ nk = 6 \/ nk = 8)%nat -> length key = (4 * nk)%nat -> zlen data mod 16 = 0 ->
  exists e, AES_encrypt key data = Ok e /\ aes_ecb nk key data e.
Proof.
  intros K L D. assert (Kz : zlen key = 16 \/ zlen key = 24 \/ zlen key = 32) by (unfold zlen; lia). destruct (keys_ok key Kz) as (Ks & N).
  destruct (ecb_ok (aes_cipher (round_keys key)) key data ltac:(intros s S; apply cipher_state; assumption) Kz D) as (bs & B & C & E & _).
  eexists. split; [exact E|]. subst data. clear D E. induction B as [|b bs Lb B IH]; [constructor|]. cbn [concat map]. constructor; [exact Lb| |apply aes_block_ok; assumption|exact IH].
  apply block_fun_length; [|exact Lb]. intros s S. apply cipher_state; assumption.
Qed.
