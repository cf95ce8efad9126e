(** * S_Threads: vocabulary for programs with several threads *)
From Verif Require Import M_Py M_UInt M_ECCurve M_KeyPair M_Crypto M_Threads S_Crypto.

(** something read from the shared variables is what secp256r1 (P-256) prescribes; Default() gave an object *)
Definition seen_p256 (s : seen) : Prop :=
  match s with
  | SeenVar v z => forall c, is_secp256r1 c -> z = param c v
  | SeenG g => forall c, is_secp256r1 c -> g = (cp_gx c, cp_gy c)
  | SeenInstance i => i <> None
  end.
(** the shared variables describe secp256r1 *)
Definition curve_p256 (g : globals) : Prop :=
  forall c, is_secp256r1 c -> (forall v, g_var g v = param c v) /\ g_G g = (cp_gx c, cp_gy c).
(** a program that begins by making a KeyPair or by calling Crypto.Default() *)
Definition sets_up_first (calls : list tcall) : Prop :=
  exists k rest, calls = k :: rest /\ ((exists reads, k = TKeyPair reads) \/ k = TDefault).
(** thread number n of a process *)
Definition thread_is (p : process) (n : nat) (t : thread) : Prop := nth_error (p_threads p) n = Some t.
(** a thread that is not inside a call *)
Definition between_calls (t : thread) : Prop := exists calls, t_code t = program calls.
(** what a list of calls asks for, in order: the variables its arithmetic looks at and, for each
    Crypto.Default(), the returned object *)
Inductive asked := AskVar (v : gvar) | AskG | AskInstance.
Definition ask_read (r : option gvar) : asked := match r with Some v => AskVar v | None => AskG end.
Definition asks_of (k : tcall) : list asked :=
  match k with TKeyPair reads | TStatic reads => map ask_read reads | TDefault => [AskInstance] end.
Definition asks (calls : list tcall) : list asked := flat_map asks_of calls.
Definition asked_of (s : seen) : asked := match s with SeenVar v _ => AskVar v | SeenG _ => AskG | SeenInstance _ => AskInstance end.
(** the number of steps a list of calls takes at most *)
Definition steps_of (k : tcall) : nat :=
  match k with TKeyPair reads => 9 + List.length reads | TStatic reads => List.length reads | TDefault => 13 end.
Definition steps (calls : list tcall) : nat := list_sum (map steps_of calls).
(** something read from the shared variables is what [g] had *)
Definition seen_in (g : globals) (s : seen) : Prop :=
  match s with SeenVar v z => z = g_var g v | SeenG p => p = g_G g | SeenInstance i => i = g_Instance g end.
