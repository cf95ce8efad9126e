(** * P_Threads: the shared curve and Crypto.Default() under every schedule (C111) *)
From Coq Require Import Lia.
From Verif Require Import M_Py M_UInt M_ECCurve M_KeyPair M_Crypto M_Threads S_Crypto S_Threads P_Crypto.

(** the curve, as an opaque constant for the proofs *)
Definition R : curve_params := setup_curve.
Lemma R_sig : SetupSignatureCurve = R.
Proof. reflexivity. Qed.
Lemma R_setup : setup_curve = R.
Proof. reflexivity. Qed.
Lemma R_p256 : is_secp256r1 R.
Proof. exact setup_is. Qed.
Lemma R_unique c : is_secp256r1 c -> c = R.
Proof.
  pose proof R_p256 as (A & B & C & D & E & F). intros (A' & B' & C' & D' & E' & F').
  destruct c as [p n a b x y]. destruct R as [p' n' a' b' x' y']. cbn [cp_p cp_n cp_a cp_b cp_gx cp_gy] in *. congruence.
Qed.
Opaque R setup_curve SetupSignatureCurve.

Record known := mkKnown { k_v : gvar -> bool; k_G : bool; k_I : bool; k_x : bool; k_y : bool; k_n : bool }.
Definition nothing := mkKnown (fun _ => false) false false false false false.
Definition learn_v K v := mkKnown (fun w => gvar_eqb w v || k_v K w) (k_G K) (k_I K) (k_x K) (k_y K) (k_n K).
Definition learn_G K := mkKnown (k_v K) true (k_I K) (k_x K) (k_y K) (k_n K).
Definition learn_I K := mkKnown (k_v K) (k_G K) true (k_x K) (k_y K) (k_n K).
Definition learn_x K := mkKnown (k_v K) (k_G K) (k_I K) true (k_y K) (k_n K).
Definition learn_y K := mkKnown (k_v K) (k_G K) (k_I K) (k_x K) true (k_n K).
Definition learn_n K := mkKnown (k_v K) (k_G K) (k_I K) (k_x K) (k_y K) true.
Definition learn_all K := mkKnown (fun _ => true) true true (k_x K) (k_y K) (k_n K).
Definition curve_known K : Prop := (forall v, k_v K v = true) /\ k_G K = true.
Definition below (K K' : known) : Prop := (forall v, k_v K v = true -> k_v K' v = true) /\ (k_G K = true -> k_G K' = true) /\ (k_I K = true -> k_I K' = true) /\
  (k_x K = true -> k_x K' = true) /\ (k_y K = true -> k_y K' = true) /\ (k_n K = true -> k_n K' = true).

(** [ok rd K code]: run from a state where K is known, the code stores only the right values, and with
    rd reads only known ones *)
Fixpoint ok (rd : bool) (K : known) (code : list instr) : Prop :=
  match code with
  | [] => True
  | IStore v z :: r => z = param R v /\ ok rd (learn_v K v) r
  | ILoadGx :: r => k_v K gGx = true /\ ok rd (learn_x K) r
  | ILoadGy :: r => k_v K gGy = true /\ ok rd (learn_y K) r
  | IStoreG :: r => k_x K = true /\ k_y K = true /\ ok rd (learn_G K) r
  | IRead v :: r => (rd = true -> k_v K v = true) /\ ok rd K r
  | IReadG :: r => (rd = true -> k_G K = true) /\ ok rd K r
  | ITest :: r => ok rd (learn_all K) r
  | INew :: r => ok rd (learn_n K) r
  | IStoreInstance :: r => curve_known K /\ k_n K = true /\ ok rd (learn_I K) r
  | IReturn :: r => k_I K = true /\ ok rd K r
  end.
Lemma ok_below rd code : forall K K', below K K' -> ok rd K code -> ok rd K' code.
Proof.
  induction code as [|i r IH]; intros K K' B O; [exact I|]. pose proof B as (Bv & BG & BI & Bx & By & Bn).
  assert (L : forall w v, k_v (learn_v K v) w = true -> k_v (learn_v K' v) w = true) by (intros w v; cbn; destruct (gvar_eqb w v); [reflexivity|apply Bv]).
  clear B. assert (N : forall J J', below J J' -> ok rd J r -> ok rd J' r) by exact IH. clear IH.
  destruct i; cbn [ok] in *.
  - destruct O as [E O]. split; [exact E|]. eapply N; [|exact O]. split; [intros w; apply L|]. cbn. auto.
  - destruct O as [E O]. split; [auto|]. eapply N; [|exact O]. repeat split; cbn; auto.
  - destruct O as [E O]. split; [auto|]. eapply N; [|exact O]. repeat split; cbn; auto.
  - destruct O as (E & E' & O). split; [auto|]. split; [auto|]. eapply N; [|exact O]. repeat split; cbn; auto.
  - destruct O as [E O]. split; [auto|]. eapply N; [|exact O]. repeat split; cbn; auto.
  - destruct O as [E O]. split; [auto|]. eapply N; [|exact O]. repeat split; cbn; auto.
  - eapply N; [|exact O]. repeat split; cbn; auto.
  - eapply N; [|exact O]. repeat split; cbn; auto.
  - destruct O as ((E & E1) & E' & O). split; [split; auto|]. split; [auto|]. eapply N; [|exact O]. repeat split; cbn; auto.
  - destruct O as [E O]. split; [auto|]. eapply N; [|exact O]. repeat split; cbn; auto.
Qed.

Definition holds (g : globals) (t : thread) (K : known) : Prop :=
  (forall v, k_v K v = true -> g_var g v = param R v) /\ (k_G K = true -> g_G g = (cp_gx R, cp_gy R)) /\ (k_I K = true -> g_Instance g <> None) /\
  (k_x K = true -> t_x t = cp_gx R) /\ (k_y K = true -> t_y t = cp_gy R) /\ (k_n K = true -> t_new t <> None).
Definition right (g : globals) : Prop := (forall v, g_var g v = param R v) /\ g_G g = (cp_gx R, cp_gy R).
Definition instance_right (g : globals) : Prop := g_Instance g <> None -> right g.
Definition right_seen (s : seen) : Prop :=
  match s with SeenVar v z => z = param R v | SeenG g => g = (cp_gx R, cp_gy R) | SeenInstance i => i <> None end.
Definition fine_seen (rd : bool) (s : seen) : Prop := match s with SeenInstance i => i <> None | _ => rd = true -> right_seen s end.
Definition tinv (rd : bool) (g : globals) (t : thread) : Prop :=
  exists K, holds g t K /\ ok rd K (t_code t) /\ Forall (fine_seen rd) (t_seen t).
Definition persists (g g' : globals) : Prop :=
  (forall v, g_var g v = param R v -> g_var g' v = param R v) /\ (g_G g = (cp_gx R, cp_gy R) -> g_G g' = (cp_gx R, cp_gy R)) /\ (g_Instance g <> None -> g_Instance g' <> None).
Lemma persists_refl g : persists g g.
Proof. repeat split; auto. Qed.
Lemma tinv_persists rd g g' t : persists g g' -> tinv rd g t -> tinv rd g' t.
Proof.
  intros (Pv & PG & PI) (K & (Hv & HG & HI & Hx & Hy & Hn) & O & S). exists K. split; [|split; assumption]. repeat split; auto.
Qed.
Lemma gvar_eqb_eq a b : gvar_eqb a b = true <-> a = b.
Proof. destruct a, b; cbn; split; intros; congruence. Qed.

Lemma make_instance_ok rd K r : ok rd (learn_all K) r -> ok rd K (make_instance ++ r).
Proof.
  intros O. unfold make_instance, change_curve_code. rewrite R_sig. cbn [app ok]. repeat (split; [reflexivity|]).
  split; [split; [intros []; reflexivity|reflexivity]|]. split; [reflexivity|]. eapply ok_below; [|exact O]. repeat split; cbn; auto. intros [] _; reflexivity.
Qed.
Lemma tstep_inv rd g t g' t' : instance_right g -> tinv rd g t -> tstep g t = (g', t') -> instance_right g' /\ tinv rd g' t' /\ persists g g'.
Proof.
  intros GI (K & H & O & S) E. pose proof H as (Hv & HG & HI & Hx & Hy & Hn). unfold tstep in E. destruct (t_code t) as [|i r] eqn:C.
  { assert (g' = g) as -> by congruence. assert (t' = t) as -> by congruence. split; [exact GI|]. split; [|apply persists_refl]. exists K. rewrite C. auto. }
  destruct i; cbn [ok] in O.
  - destruct O as [-> O]. assert (g' = set_var g v (param R v)) as -> by congruence. match type of E with (_, ?u) = _ => assert (t' = u) as -> by congruence end. clear E.
    assert (P : persists g (set_var g v (param R v))).
    { split; [|split; auto]. intros w W. cbn. destruct (gvar_eqb w v) eqn:Q; [apply gvar_eqb_eq in Q; congruence|exact W]. }
    split; [|split; [|exact P]].
    + intros N. destruct (GI N) as [V G]. split; [intros w; apply P, V|exact G].
    + exists (learn_v K v). split; [|split; [exact O|exact S]]. split; [|repeat split; assumption].
      intros w W. cbn in *. destruct (gvar_eqb w v) eqn:Q; [apply gvar_eqb_eq in Q; congruence|apply Hv, W].
  - destruct O as [KX O]. assert (g' = g) as -> by congruence. match type of E with (_, ?u) = _ => assert (t' = u) as -> by congruence end. clear E.
    split; [exact GI|]. split; [|apply persists_refl]. exists (learn_x K). split; [|split; [exact O|exact S]]. repeat split; auto. intros _. exact (Hv gGx KX).
  - destruct O as [KY O]. assert (g' = g) as -> by congruence. match type of E with (_, ?u) = _ => assert (t' = u) as -> by congruence end. clear E.
    split; [exact GI|]. split; [|apply persists_refl]. exists (learn_y K). split; [|split; [exact O|exact S]]. repeat split; auto. intros _. exact (Hv gGy KY).
  - destruct O as (KX & KY & O). match type of E with (?v, ?u) = _ => assert (g' = v) as -> by congruence; assert (t' = u) as -> by congruence end. clear E.
    rewrite (Hx KX), (Hy KY).
    split; [|split; [|repeat split; auto]].
    + intros N. destruct (GI N) as [V G]. split; [exact V|reflexivity].
    + exists (learn_G K). split; [|split; [exact O|exact S]]. repeat split; auto.
  - destruct O as [KV O]. assert (g' = g) as -> by congruence. match type of E with (_, ?u) = _ => assert (t' = u) as -> by congruence end. clear E.
    split; [exact GI|]. split; [|apply persists_refl]. exists K. split; [exact H|]. split; [exact O|]. constructor; [intros D; cbn; apply Hv, KV, D|exact S].
  - destruct O as [KV O]. assert (g' = g) as -> by congruence. match type of E with (_, ?u) = _ => assert (t' = u) as -> by congruence end. clear E.
    split; [exact GI|]. split; [|apply persists_refl]. exists K. split; [exact H|]. split; [exact O|]. constructor; [intros D; cbn; apply HG, KV, D|exact S].
  - assert (g' = g) as -> by congruence. match type of E with (_, ?u) = _ => assert (t' = u) as -> by congruence end. clear E.
    split; [exact GI|]. split; [|apply persists_refl]. destruct (g_Instance g) as [j|] eqn:J.
    + assert (Nn : g_Instance g <> None) by congruence. destruct (GI Nn) as [V G]. exists (learn_all K). split; [|split; [exact O|exact S]]. repeat split; auto.
    + exists K. split; [exact H|]. split; [apply make_instance_ok, O|exact S].
  - match type of E with (?v, ?u) = _ => assert (g' = v) as -> by congruence; assert (t' = u) as -> by congruence end. clear E.
    split; [exact GI|]. split; [|repeat split; auto]. exists (learn_n K). split; [|split; [exact O|exact S]]. repeat split; auto. discriminate.
  - destruct O as (KC & KN & O). match type of E with (?v, ?u) = _ => assert (g' = v) as -> by congruence; assert (t' = u) as -> by congruence end. clear E.
    assert (P : persists g (mkGlobals (g_var g) (g_G g) (t_new t) (g_objects g))) by (split; [|split]; auto; intros _; exact (Hn KN)).
    split; [|split; [|exact P]].
    + intros _. destruct KC as [KV KG]. split; [intros w; apply Hv, KV|apply HG, KG].
    + exists (learn_I K). split; [|split; [exact O|exact S]]. split; [exact Hv|]. split; [exact HG|]. split; [intros _; exact (Hn KN)|]. auto.
  - destruct O as [KI O]. assert (g' = g) as -> by congruence. match type of E with (_, ?u) = _ => assert (t' = u) as -> by congruence end. clear E.
    split; [exact GI|]. split; [|apply persists_refl]. exists K. split; [exact H|]. split; [exact O|]. constructor; [cbn; apply HI, KI|exact S].
Qed.

(** ** processes *)
Lemma nth_update {A} (l : list A) n x m : nth_error (update l n x) m = if Nat.eqb m n then match nth_error l n with Some _ => Some x | None => None end else nth_error l m.
Proof.
  revert n m. induction l as [|y l IH]; intros n m; [destruct n, m; cbn; try destruct (Nat.eqb _ _); reflexivity|].
  destruct n, m; cbn; try reflexivity. apply IH.
Qed.
Definition pinv (safe : nat -> bool) (p : process) : Prop :=
  instance_right (p_globals p) /\ forall n t, thread_is p n t -> tinv (safe n) (p_globals p) t.
Lemma pstep_inv safe p n : pinv safe p -> pinv safe (pstep p n) /\ persists (p_globals p) (p_globals (pstep p n)).
Proof.
  intros [GI T]. unfold pstep. destruct (nth_error (p_threads p) n) as [t|] eqn:N; [|split; [split; assumption|apply persists_refl]].
  destruct (tstep (p_globals p) t) as [g' t'] eqn:E. destruct (tstep_inv (safe n) _ _ _ _ GI (T n t N) E) as (GI' & T' & P).
  split; [|exact P]. split; [exact GI'|]. intros m u U. unfold thread_is in U. cbn [p_threads p_globals] in *. rewrite nth_update in U. destruct (Nat.eqb_spec m n) as [->|D].
  - rewrite N in U. assert (u = t') as -> by congruence. exact T'.
  - apply (tinv_persists _ _ _ _ P), T, U.
Qed.
Lemma run_inv safe schedule : forall p, pinv safe p -> pinv safe (run p schedule) /\ persists (p_globals p) (p_globals (run p schedule)).
Proof.
  induction schedule as [|n l IH]; intros p I; [split; [exact I|apply persists_refl]|]. cbn [run fold_left]. destruct (pstep_inv safe p n I) as [I1 P1].
  destruct (IH _ I1) as [I2 P2]. split; [exact I2|]. destruct P1 as (A & B & C), P2 as (A' & B' & C'). repeat split; auto.
Qed.

(** ** programs *)
Lemma reads_ok rd K rs r : curve_known K \/ rd = false -> ok rd K r -> ok rd K (map read_code rs ++ r).
Proof.
  intros C O. induction rs as [|[v|] rs IH]; [exact O| |]; cbn [map read_code app ok]; (split; [|exact IH]); intros D; (destruct C as [[V G]|C]; [|congruence]); auto.
Qed.
Definition after_change (K : known) : known := mkKnown (fun _ => true) true (k_I K) true true (k_n K).
Lemma change_ok rd K r : ok rd (after_change K) r -> ok rd K (change_curve_code setup_curve ++ r).
Proof.
  intros O. unfold change_curve_code. rewrite R_setup. cbn [app ok]. repeat (split; [reflexivity|]). eapply ok_below; [|exact O].
  repeat split; cbn; auto. intros [] _; reflexivity.
Qed.
Lemma program_ok rd calls : forall K, curve_known K \/ rd = false -> ok rd K (program calls).
Proof.
  induction calls as [|k calls IH]; intros K C; [exact I|]. change (program (k :: calls)) with (code_of k ++ program calls). destruct k as [rs| |rs]; cbn [code_of].
  - rewrite <- app_assoc. apply change_ok. apply reads_ok; [left; split; reflexivity|]. apply IH. left. split; reflexivity.
  - cbn [app ok]. split; [reflexivity|]. apply IH. left. split; reflexivity.
  - apply reads_ok; [exact C|]. apply IH, C.
Qed.
Lemma setup_first_ok calls : sets_up_first calls -> ok true nothing (program calls).
Proof.
  intros (k & rest & -> & [[rs ->]| ->]).
  - change (program (TKeyPair rs :: rest)) with (code_of (TKeyPair rs) ++ program rest). cbn [code_of]. rewrite <- app_assoc. apply change_ok. apply reads_ok; [left; split; reflexivity|]. apply program_ok. left. split; reflexivity.
  - change (program (TDefault :: rest)) with (code_of TDefault ++ program rest). cbn [code_of app ok]. split; [reflexivity|]. apply program_ok. left. split; reflexivity.
Qed.

(** ** from the invariant to the specification *)
Lemma right_p256 g : right g <-> curve_p256 g.
Proof.
  split; [intros [V G] c C; rewrite (R_unique c C); split; assumption|intros H; exact (H R R_p256)].
Qed.
Lemma right_seen_p256 s : right_seen s -> seen_p256 s.
Proof. destruct s; cbn; [intros H c C; rewrite (R_unique c C); exact H..|auto]. Qed.
Lemma fine_p256 l : Forall (fine_seen true) l -> Forall seen_p256 l.
Proof. intros F. eapply Forall_impl; [|exact F]. intros s H. apply right_seen_p256. destruct s; cbn in *; auto. Qed.
Lemma instance_right_of g : g_Instance g = None \/ curve_p256 g -> instance_right g.
Proof. intros [H|H] N; [congruence|apply right_p256, H]. Qed.
Lemma launch_thread g calls n t : thread_is (launch g calls) n t -> exists cs, nth_error calls n = Some cs /\ t = start cs.
Proof.
  unfold thread_is, launch. cbn [p_threads]. rewrite nth_error_map. destruct (nth_error calls n) as [cs|]; cbn; [|discriminate]. intros E. exists cs. split; [reflexivity|congruence].
Qed.
Lemma holds_nothing g t : holds g t nothing.
Proof. repeat split; cbn; intros; discriminate. Qed.
Definition all_safe := fun _ : nat => true.
Definition none_safe := fun _ : nat => false.
Lemma launch_none g calls : instance_right g -> pinv none_safe (launch g calls).
Proof.
  intros I. split; [exact I|]. intros n t H. destruct (launch_thread _ _ _ _ H) as (cs & _ & ->). exists nothing. split; [apply holds_nothing|]. split; [apply program_ok; right; reflexivity|constructor].
Qed.
Definition one_safe (n : nat) := fun m : nat => Nat.eqb m n.
Lemma launch_one g calls n cs : instance_right g -> nth_error calls n = Some cs -> sets_up_first cs -> pinv (one_safe n) (launch g calls).
Proof.
  intros I N F. split; [exact I|]. intros m t H. destruct (launch_thread _ _ _ _ H) as (cs' & M & ->). exists nothing. split; [apply holds_nothing|]. split; [|constructor].
  unfold one_safe. destruct (Nat.eqb_spec m n) as [->|D].
  - assert (cs' = cs) as -> by congruence. apply setup_first_ok, F.
  - apply program_ok. right. reflexivity.
Qed.
Lemma launch_all g calls : right g -> pinv all_safe (launch g calls).
Proof.
  intros I. split; [intros _; exact I|]. intros n t H. destruct (launch_thread _ _ _ _ H) as (cs & _ & ->). exists (mkKnown (fun _ => true) true false false false false).
  split; [|split; [|constructor]].
  - destruct I as [V G]. repeat split; cbn; auto; discriminate.
  - apply program_ok. left. split; reflexivity.
Qed.

(** Whatever the other threads do, and however the threads are interleaved, a thread that begins by
    making a KeyPair or calling Crypto.Default() sees the P-256 parameters at every read of its
    arithmetic, and an object at every Default(). *)
Theorem C111_own_setup : forall g calls schedule n cs t,
  g_Instance g = None \/ curve_p256 g ->
  nth_error calls n = Some cs -> sets_up_first cs ->
  thread_is (run (launch g calls) schedule) n t -> Forall seen_p256 (t_seen t).
Proof.
  intros g calls schedule n cs t I N F H. destruct (run_inv (one_safe n) schedule _ (launch_one g calls n cs (instance_right_of _ I) N F)) as [[_ T] _].
  destruct (T n t H) as (K & _ & _ & S). unfold one_safe in S. rewrite Nat.eqb_refl in S. apply fine_p256, S.
Qed.
Print Assumptions C111_own_setup.

(** Once the shared variables describe P-256 they do so for ever, and every thread sees only P-256. *)
Theorem C111_settled : forall g calls schedule, curve_p256 g ->
  curve_p256 (p_globals (run (launch g calls) schedule)) /\
  (forall n t, thread_is (run (launch g calls) schedule) n t -> Forall seen_p256 (t_seen t)).
Proof.
  intros g calls schedule C. apply right_p256 in C. destruct (run_inv all_safe schedule _ (launch_all g calls C)) as [[_ T] (PV & PG & _)]. split.
  - apply right_p256. destruct C as [V G]. split; [intros v; apply PV, V|apply PG, G].
  - intros n t H. destruct (T n t H) as (K & _ & _ & S). apply fine_p256, S.
Qed.
Print Assumptions C111_settled.

(** An instance is only published after the curve has been set up, so a thread that sees one may rely
    on the curve; and Default() never returns None, under any schedule. *)
Theorem C111_published : forall g calls schedule,
  g_Instance g = None \/ curve_p256 g ->
  (g_Instance (p_globals (run (launch g calls) schedule)) <> None -> curve_p256 (p_globals (run (launch g calls) schedule))) /\
  (forall n t i, thread_is (run (launch g calls) schedule) n t -> In (SeenInstance i) (t_seen t) -> i <> None).
Proof.
  intros g calls schedule I. destruct (run_inv none_safe schedule _ (launch_none g calls (instance_right_of _ I))) as [[GI T] _]. split.
  - intros N. apply right_p256, GI, N.
  - intros n t i H M. destruct (T n t H) as (K & _ & _ & S). rewrite Forall_forall in S. exact (S _ M).
Qed.
Print Assumptions C111_published.

(** ** what any thread can see *)
Definition among (g0 g : globals) : Prop := (forall v, g_var g v = g_var g0 v \/ g_var g v = param R v) /\ (g_G g = g_G g0 \/ g_G g = (cp_gx R, cp_gy R)).
Definition among_seen (g0 : globals) (s : seen) : Prop :=
  match s with SeenVar v z => z = g_var g0 v \/ z = param R v | SeenG p => p = g_G g0 \/ p = (cp_gx R, cp_gy R) | SeenInstance _ => True end.
Lemma tstep_among g0 g t g' t' : tinv false g t -> among g0 g -> Forall (among_seen g0) (t_seen t) -> tstep g t = (g', t') -> among g0 g' /\ Forall (among_seen g0) (t_seen t').
Proof.
  intros (K & (Hv & HG & HI & Hx & Hy & Hn) & O & _) [AV AG] S E. unfold tstep in E. destruct (t_code t) as [|i r].
  { assert (g' = g) as -> by congruence. assert (t' = t) as -> by congruence. repeat split; assumption. }
  destruct i; cbn [ok] in O; match type of E with (?v, ?u) = _ => assert (g' = v) as -> by congruence; assert (t' = u) as -> by congruence end; clear E; cbn [t_seen].
  - destruct O as [-> O]. split; [|exact S]. split; [|exact AG]. intros w. cbn. destruct (gvar_eqb w v) eqn:Q; [apply gvar_eqb_eq in Q; right; congruence|apply AV].
  - repeat split; assumption.
  - repeat split; assumption.
  - destruct O as (KX & KY & O). split; [|exact S]. split; [exact AV|]. right. cbn. rewrite (Hx KX), (Hy KY). reflexivity.
  - split; [split; assumption|]. constructor; [cbn; apply AV|exact S].
  - split; [split; assumption|]. constructor; [cbn; apply AG|exact S].
  - repeat split; assumption.
  - repeat split; assumption.
  - repeat split; assumption.
  - split; [split; assumption|]. constructor; [exact I|exact S].
Qed.
Lemma run_among g0 schedule : forall p, pinv none_safe p -> among g0 (p_globals p) -> (forall n t, thread_is p n t -> Forall (among_seen g0) (t_seen t)) ->
  forall n t, thread_is (run p schedule) n t -> Forall (among_seen g0) (t_seen t).
Proof.
  induction schedule as [|k l IH]; intros p I A S; [exact S|]. cbn [run fold_left]. destruct (pstep_inv none_safe p k I) as [I1 _]. apply IH; [exact I1| |].
  - unfold pstep. destruct (nth_error (p_threads p) k) as [t|] eqn:N; [|exact A]. destruct (tstep (p_globals p) t) as [g' t'] eqn:E.
    destruct I as [_ T]. destruct (tstep_among g0 _ _ _ _ (T k t N) A (S k t N) E) as [A' _]. exact A'.
  - intros m u U. unfold pstep in U. destruct (nth_error (p_threads p) k) as [t|] eqn:N; [|exact (S m u U)]. destruct (tstep (p_globals p) t) as [g' t'] eqn:E.
    destruct I as [_ T]. destruct (tstep_among g0 _ _ _ _ (T k t N) A (S k t N) E) as [_ S']. unfold thread_is in U. cbn [p_threads] in U. rewrite nth_update in U.
    destruct (Nat.eqb_spec m k) as [->|D]; [rewrite N in U; assert (u = t') as -> by congruence; exact S'|exact (S m u U)].
Qed.
(** Every value any thread ever sees of a curve parameter, and every G, is one the process started with
    or the P-256 one: there are no torn values, not even for the pair G. *)
Theorem C111_old_or_new : forall g calls schedule n t s,
  g_Instance g = None \/ curve_p256 g ->
  thread_is (run (launch g calls) schedule) n t -> In s (t_seen t) -> seen_in g s \/ seen_p256 s.
Proof.
  intros g calls schedule n t s I H M. apply instance_right_of in I. pose proof (launch_none g calls I) as P.
  assert (F : Forall (among_seen g) (t_seen t)).
  { eapply (run_among g schedule _ P); [split; [left; reflexivity|left; reflexivity]| |exact H]. intros m u U. destruct (launch_thread _ _ _ _ U) as (cs & _ & ->). constructor. }
  rewrite Forall_forall in F. specialize (F s M). destruct (run_inv none_safe schedule _ P) as [[_ T] _]. destruct (T n t H) as (K & _ & _ & S). rewrite Forall_forall in S. specialize (S s M).
  destruct s; cbn in *.
  - destruct F as [F|F]; [left; exact F|right]. intros c C. rewrite (R_unique c C). exact F.
  - destruct F as [F|F]; [left; exact F|right]. intros c C. rewrite (R_unique c C). exact F.
  - right. exact S.
Qed.
Print Assumptions C111_old_or_new.

(** ** every call finishes, and gets exactly what it asks for *)
Definition cost (i : instr) : nat := match i with ITest => 12 | _ => 1 end.
Definition costs (code : list instr) : nat := list_sum (map cost code).
Definition asks_instr (i : instr) : list asked := match i with IRead v => [AskVar v] | IReadG => [AskG] | IReturn => [AskInstance] | _ => [] end.
Definition asks_code (code : list instr) : list asked := flat_map asks_instr code.
Lemma make_instance_shape r : costs (make_instance ++ r) = (11 + costs r)%nat /\ asks_code (make_instance ++ r) = asks_code r.
Proof. split; reflexivity. Qed.
Lemma tstep_progress g t g' t' : tstep g t = (g', t') ->
  rev (map asked_of (t_seen t')) ++ asks_code (t_code t') = rev (map asked_of (t_seen t)) ++ asks_code (t_code t) /\
  (costs (t_code t') <= pred (costs (t_code t)))%nat /\ (t_code t = [] -> t_code t' = []).
Proof.
  intros E. unfold tstep in E. destruct (t_code t) as [|i r] eqn:C.
  { assert (t' = t) as -> by congruence. rewrite C. split; [reflexivity|]. split; [apply Nat.le_refl|auto]. }
  destruct i; match type of E with (_, ?u) = _ => assert (t' = u) as -> by congruence end; clear E; (split; [|split; [|discriminate]]);
    cbn [t_code t_seen map rev asked_of].
  all: try (unfold costs; cbn [map cost list_sum fold_right Nat.add pred]; lia).
  all: try reflexivity.
  all: try (rewrite <- app_assoc; reflexivity).
  - destruct (g_Instance g); [reflexivity|]. rewrite (proj2 (make_instance_shape r)). reflexivity.
  - destruct (g_Instance g); [|rewrite (proj1 (make_instance_shape r))]; unfold costs, list_sum; cbn [map cost fold_right Nat.add pred]; lia.
Qed.
Definition taken (schedule : list nat) (n : nat) : nat := count_occ Nat.eq_dec schedule n.
Lemma pstep_thread p k n t : thread_is p n t -> exists t', thread_is (pstep p k) n t' /\ (if Nat.eqb n k then t' = snd (tstep (p_globals p) t) else t' = t).
Proof.
  intros H. unfold pstep. destruct (nth_error (p_threads p) k) as [u|] eqn:N.
  - destruct (tstep (p_globals p) u) as [g' u'] eqn:E. unfold thread_is. cbn [p_threads]. rewrite nth_update. destruct (Nat.eqb_spec n k) as [->|D].
    + rewrite N. exists u'. split; [reflexivity|]. unfold thread_is in H. assert (u = t) as -> by congruence. rewrite E. reflexivity.
    + exists t. split; [exact H|reflexivity].
  - exists t. split; [exact H|]. destruct (Nat.eqb_spec n k) as [->|D]; [unfold thread_is in H; congruence|reflexivity].
Qed.
Lemma run_progress schedule : forall p n t, thread_is p n t -> exists t', thread_is (run p schedule) n t' /\
  rev (map asked_of (t_seen t')) ++ asks_code (t_code t') = rev (map asked_of (t_seen t)) ++ asks_code (t_code t) /\
  (costs (t_code t') <= costs (t_code t) - taken schedule n)%nat.
Proof.
  induction schedule as [|k l IH]; intros p n t H; [exists t; split; [exact H|]; split; [reflexivity|cbn; lia]|]. cbn [run fold_left].
  destruct (pstep_thread p k n t H) as (t1 & H1 & E). destruct (IH _ n t1 H1) as (t' & H' & A & B). exists t'. split; [exact H'|]. unfold taken in *. cbn [count_occ].
  destruct (Nat.eqb_spec n k) as [->|D].
  - destruct (Nat.eq_dec k k) as [_|X]; [|congruence]. destruct (tstep (p_globals p) t) as [g1 u] eqn:Q. cbn [snd] in E. subst u. destruct (tstep_progress _ _ _ _ Q) as (A1 & B1 & _).
    split; [congruence|lia].
  - subst t1. destruct (Nat.eq_dec k n) as [X|_]; [congruence|]. split; [exact A|exact B].
Qed.
Lemma costs_app a b : costs (a ++ b) = (costs a + costs b)%nat.
Proof. unfold costs. rewrite map_app. apply list_sum_app. Qed.
Lemma costs_reads rs : costs (map read_code rs) = List.length rs.
Proof. induction rs as [|[v|] rs IH]; [reflexivity| |]; unfold costs, list_sum in *; cbn [map read_code cost fold_right List.length] in *; lia. Qed.
Lemma asks_reads rs : asks_code (map read_code rs) = map ask_read rs.
Proof. induction rs as [|[v|] rs IH]; [reflexivity| |]; unfold asks_code in *; cbn [map read_code asks_instr flat_map ask_read app] in *; rewrite IH; reflexivity. Qed.
Lemma program_costs calls : costs (program calls) = steps calls.
Proof.
  induction calls as [|k calls IH]; [reflexivity|]. change (program (k :: calls)) with (code_of k ++ program calls). rewrite costs_app, IH.
  change (steps (k :: calls)) with (steps_of k + steps calls)%nat. destruct k; cbn [code_of steps_of]; [rewrite costs_app, costs_reads; reflexivity|reflexivity|rewrite costs_reads; reflexivity].
Qed.
Lemma program_asks calls : asks_code (program calls) = asks calls.
Proof.
  induction calls as [|k calls IH]; [reflexivity|]. change (program (k :: calls)) with (code_of k ++ program calls). unfold asks_code. rewrite flat_map_app. fold (asks_code (code_of k)) (asks_code (program calls)).
  rewrite IH. change (asks (k :: calls)) with (asks_of k ++ asks calls). apply (f_equal (fun l => l ++ asks calls)).
  destruct k; cbn [code_of asks_of]; [unfold asks_code; rewrite flat_map_app; fold (asks_code (map read_code reads)); rewrite asks_reads; reflexivity|reflexivity|apply asks_reads].
Qed.
Lemma costs_zero code : costs code = 0%nat -> code = [].
Proof. destruct code as [|i r]; [reflexivity|]. unfold costs, list_sum. cbn [map fold_right]. destruct i; cbn [cost]; lia. Qed.
(** No schedule can hold a thread up: given as many turns as its calls have steps it has finished,
    whatever the other threads are doing, and it has been given exactly what it asked for, in order. *)
Theorem C111_finishes : forall g calls schedule n cs,
  nth_error calls n = Some cs -> (steps cs <= count_occ Nat.eq_dec schedule n)%nat ->
  exists t, thread_is (run (launch g calls) schedule) n t /\ t_code t = [] /\ map asked_of (rev (t_seen t)) = asks cs.
Proof.
  intros g calls schedule n cs N L. assert (H : thread_is (launch g calls) n (start cs)) by (unfold thread_is, launch; cbn [p_threads]; rewrite nth_error_map, N; reflexivity).
  destruct (run_progress schedule _ n _ H) as (t & T & A & B). cbn [start t_code t_seen map rev app] in A, B. rewrite program_costs in B. rewrite program_asks in A.
  assert (Z0 : t_code t = []) by (apply costs_zero; unfold taken in B; lia). exists t. split; [exact T|]. split; [exact Z0|]. rewrite Z0, app_nil_r in A. rewrite map_rev. exact A.
Qed.
Print Assumptions C111_finishes.

(** ** an instance that is there stays *)
Definition settled_on (j : nat) (p : process) : Prop :=
  g_Instance (p_globals p) = Some j /\
  forall n t, thread_is p n t -> ~ In IStoreInstance (t_code t).
Lemma program_no_store calls : ~ In IStoreInstance (program calls).
Proof.
  unfold program. rewrite in_flat_map. intros (k & _ & H). destruct k; cbn [code_of] in H.
  - apply in_app_or in H. destruct H as [H|H]; [cbn in H; repeat (destruct H as [H|H]; [discriminate|]); exact H|]. apply in_map_iff in H. destruct H as ([v|] & E & _); discriminate E.
  - cbn in H. intuition discriminate.
  - apply in_map_iff in H. destruct H as ([v|] & E & _); discriminate E.
Qed.
Lemma run_settled j schedule : forall p, settled_on j p -> settled_on j (run p schedule) /\
  forall n t t', thread_is p n t -> thread_is (run p schedule) n t' -> exists new, t_seen t' = new ++ t_seen t /\ forall i, In (SeenInstance i) new -> i = Some j.
Proof.
  induction schedule as [|k l IH]; intros p H.
  { split; [exact H|]. intros n t t' A B. exists []. split; [|intros i []]. unfold thread_is in *. cbn [run fold_left] in B. assert (t' = t) as -> by congruence. reflexivity. }
  cbn [run fold_left]. assert (S1 : settled_on j (pstep p k) /\ forall n t t', thread_is p n t -> thread_is (pstep p k) n t' -> exists new, t_seen t' = new ++ t_seen t /\ forall i, In (SeenInstance i) new -> i = Some j).
  { destruct H as [HJ HT]. unfold pstep. destruct (nth_error (p_threads p) k) as [u|] eqn:N.
    2:{ split; [split; assumption|]. intros n t t' A B. exists []. split; [|intros i []]. unfold thread_is in *. assert (t' = t) as -> by congruence. reflexivity. }
    destruct (tstep (p_globals p) u) as [g' u'] eqn:E.
    assert (Q : g_Instance g' = Some j /\ ~ In IStoreInstance (t_code u') /\ exists new, t_seen u' = new ++ t_seen u /\ forall i, In (SeenInstance i) new -> i = Some j).
    { pose proof (HT k u N) as NI. unfold tstep in E. destruct (t_code u) as [|i r] eqn:C.
      - assert (g' = p_globals p) as -> by congruence. assert (u' = u) as -> by congruence. rewrite C. split; [first [exact HJ|reflexivity]|]. split; [exact NI|]. exists []. split; [reflexivity|intros i []].
      - assert (NR : ~ In IStoreInstance r) by (intros X; apply NI; right; exact X).
        destruct i; rewrite ?HJ in E; match type of E with (?v, ?w) = _ => assert (g' = v) as -> by congruence; assert (u' = w) as -> by congruence end; clear E; cbn [g_Instance t_code t_seen set_var].
        all: try (split; [first [exact HJ|reflexivity]|]; split; [exact NR|]; exists []; split; [reflexivity|intros i []]; fail).
        + split; [first [exact HJ|reflexivity]|]. split; [exact NR|]. eexists [_]. split; [reflexivity|]. intros i [X|[]]. discriminate X.
        + split; [first [exact HJ|reflexivity]|]. split; [exact NR|]. eexists [_]. split; [reflexivity|]. intros i [X|[]]. discriminate X.
        + exfalso. apply NI. left. reflexivity.
        + split; [first [exact HJ|reflexivity]|]. split; [exact NR|]. eexists [_]. split; [reflexivity|]. intros i [X|[]]. congruence. }
    destruct Q as (Q1 & Q2 & Q3). split.
    - split; [exact Q1|]. intros m t T. unfold thread_is in T. cbn [p_threads] in T. rewrite nth_update in T. destruct (Nat.eqb_spec m k) as [->|D]; [rewrite N in T; assert (t = u') as -> by congruence; exact Q2|exact (HT m t T)].
    - intros m t t' A B. unfold thread_is in *. cbn [p_threads] in B. rewrite nth_update in B. destruct (Nat.eqb_spec m k) as [->|D].
      + rewrite N in B. assert (t' = u') as -> by congruence. assert (t = u) as -> by congruence. exact Q3.
      + exists []. split; [|intros i []]. assert (t' = t) as -> by congruence. reflexivity. }
  destruct S1 as [S1 S1']. destruct (IH _ S1) as [S2 S2']. split; [exact S2|]. intros n t t' A B. destruct (pstep_thread p k n t A) as (t1 & A1 & _).
  destruct (S1' n t t1 A A1) as (n1 & E1 & I1). destruct (S2' n t1 t' A1 B) as (n2 & E2 & I2). exists (n2 ++ n1). split; [rewrite E2, E1, app_assoc; reflexivity|].
  intros i M. apply in_app_or in M. destruct M; auto.
Qed.
(** Once an instance has been made and no thread is inside a call, it is the instance for ever: under
    every further schedule each Default() of each thread returns that one object. *)
Theorem C111_instance_settled : forall p j schedule,
  g_Instance (p_globals p) = Some j -> (forall n t, thread_is p n t -> between_calls t) ->
  g_Instance (p_globals (run p schedule)) = Some j /\
  forall n t t', thread_is p n t -> thread_is (run p schedule) n t' ->
    exists new, t_seen t' = new ++ t_seen t /\ forall i, In (SeenInstance i) new -> i = Some j.
Proof.
  intros p j schedule J B. assert (S : settled_on j p).
  { split; [exact J|]. intros n t T. destruct (B n t T) as [cs ->]. apply program_no_store. }
  destruct (run_settled j schedule p S) as [[J' _] R']. split; assumption.
Qed.
Print Assumptions C111_instance_settled.

(** ** what goes wrong before that *)
Lemma mixed_PN g : nth_error (p_threads (run (launch g [[TStatic [Some gP; Some gN]]; [TKeyPair []]]) [1; 0; 0]%nat)) 0 =
  Some (mkThread [] 0 0 None [SeenVar gN (g_var g gN); SeenVar gP (cp_p setup_curve)]).
Proof. lazy beta iota zeta delta -[setup_curve cp_p cp_n cp_a cp_b cp_gx cp_gy]. reflexivity. Qed.
Lemma mixed_PG g : nth_error (p_threads (run (launch g [[TStatic [Some gP; None]]; [TKeyPair []]]) [0; 1; 1; 1; 1; 1; 1; 1; 1; 1; 0]%nat)) 0 =
  Some (mkThread [] 0 0 None [SeenG (cp_gx setup_curve, cp_gy setup_curve); SeenVar gP (g_var g gP)]).
Proof. lazy beta iota zeta delta -[setup_curve cp_p cp_n cp_a cp_b cp_gx cp_gy]. reflexivity. Qed.
Definition race : list nat := ([1; 0] ++ repeat 0 11 ++ [0] ++ repeat 1 12 ++ [0; 0])%nat.
Lemma race_all g : g_Instance g = None -> exists t0 t1, p_threads (run (launch g [[TDefault; TDefault]; [TDefault]]) race) = [t0; t1] /\ t_code t0 = [] /\ t_code t1 = [] /\
  rev (t_seen t0) = [SeenInstance (Some (g_objects g)); SeenInstance (Some (S (g_objects g)))] /\ t_seen t1 = [SeenInstance (Some (S (g_objects g)))].
Proof.
  destruct g as [v G i k]. cbn [g_Instance]. intros ->.
  lazy beta iota zeta delta -[SetupSignatureCurve cp_p cp_n cp_a cp_b cp_gx cp_gy]. eexists. eexists. split; [reflexivity|]. lazy. repeat split.
Qed.
(** A thread that verifies with the static methods while another makes the first KeyPair can work with
    the prime of one curve and the group order, or the base point, of the other. *)
Theorem C111_mixed : exists schedule schedule' t t',
  thread_is (run (launch fresh_globals [[TStatic [Some gP; Some gN]]; [TKeyPair []]]) schedule) 0 t /\
  t_seen t = [SeenVar gN (cp_n bitcoin_default); SeenVar gP (cp_p setup_curve)] /\
  thread_is (run (launch fresh_globals [[TStatic [Some gP; None]]; [TKeyPair []]]) schedule') 0 t' /\
  t_seen t' = [SeenG (cp_gx setup_curve, cp_gy setup_curve); SeenVar gP (cp_p bitcoin_default)] /\
  cp_p setup_curve <> cp_p bitcoin_default /\ cp_n setup_curve <> cp_n bitcoin_default.
Proof.
  exists [1; 0; 0]%nat, [0; 1; 1; 1; 1; 1; 1; 1; 1; 1; 0]%nat. eexists. eexists. split; [exact (mixed_PN fresh_globals)|]. split; [reflexivity|].
  split; [exact (mixed_PG fresh_globals)|]. split; [reflexivity|]. split; apply Z.eqb_neq; vm_compute; reflexivity.
Qed.
Print Assumptions C111_mixed.

(** Two threads that call Default() for the first time at once can be given two different objects, and
    one thread can be given two different objects by two calls. *)
Theorem C111_default_race : exists schedule t0 t1,
  thread_is (run (launch fresh_globals [[TDefault; TDefault]; [TDefault]]) schedule) 0 t0 /\
  thread_is (run (launch fresh_globals [[TDefault; TDefault]; [TDefault]]) schedule) 1 t1 /\
  t_code t0 = [] /\ t_code t1 = [] /\
  exists i j, i <> j /\ rev (t_seen t0) = [SeenInstance (Some i); SeenInstance (Some j)] /\ t_seen t1 = [SeenInstance (Some j)].
Proof.
  assert (N : g_Instance fresh_globals = None) by reflexivity. generalize dependent fresh_globals. intros g N.
  destruct (race_all g N) as (t0 & t1 & E & C0 & C1 & S0 & S1). exists race, t0, t1. unfold thread_is. rewrite E.
  split; [reflexivity|]. split; [reflexivity|]. split; [exact C0|]. split; [exact C1|]. exists (g_objects g), (S (g_objects g)). split; [apply n_Sn|]. split; [exact S0|exact S1].
Qed.
Print Assumptions C111_default_race.

(** ** the hypotheses are met *)
Example C111_own_setup_case : exists t, thread_is (run (launch fresh_globals [[TStatic [Some gN]]; [TDefault; TStatic [Some gP; None]]]) ([0; 1] ++ repeat 1 16)%nat) 1 t /\
  t_code t = [] /\ Forall seen_p256 (t_seen t) /\ map asked_of (rev (t_seen t)) = [AskInstance; AskVar gP; AskG].
Proof.
  destruct (C111_finishes fresh_globals [[TStatic [Some gN]]; [TDefault; TStatic [Some gP; None]]] ([0; 1] ++ repeat 1 16)%nat 1 [TDefault; TStatic [Some gP; None]] eq_refl) as (t & T & C & A).
  { cbn. lia. }
  exists t. split; [exact T|]. split; [exact C|]. split; [|exact A]. refine (C111_own_setup fresh_globals [[TStatic [Some gN]]; [TDefault; TStatic [Some gP; None]]] _ 1 [TDefault; TStatic [Some gP; None]] t _ eq_refl _ T); [left; reflexivity|].
  exists TDefault, [TStatic [Some gP; None]]. split; [reflexivity|right; reflexivity].
Qed.
Print Assumptions C111_own_setup_case.
Example C111_settled_case : exists g, g_Instance g = Some 5%nat /\ curve_p256 g /\
  (forall n t, thread_is (launch g [[TDefault]; [TKeyPair [None]]]) n t -> between_calls t).
Proof.
  exists (mkGlobals (param R) (cp_gx R, cp_gy R) (Some 5%nat) 6%nat). split; [reflexivity|]. split.
  - apply right_p256. split; reflexivity.
  - intros n t H. destruct (launch_thread _ _ _ _ H) as (cs & _ & ->). exists cs. reflexivity.
Qed.
Print Assumptions C111_settled_case.
