(** * M_Threads: Crypto.py and KeyPair.py used from several threads

    M_Crypto runs whole calls one after the other.  Here every thread is a list of bytecode-sized
    steps and a schedule says which thread takes the next step; CPython switches threads only between
    bytecodes, so a single load or store of a module variable is atomic and nothing larger is.
    The shared variables are those of the `bitcoin` module and Crypto._Instance. *)
From Verif Require Import M_Py M_Hash M_UInt M_ECCurve M_KeyPair M_Crypto.

(** bitcoin's module variables P, N, A, B, Gx, Gy (G = (Gx, Gy) is a seventh) *)
Inductive gvar := gP | gN | gA | gB | gGx | gGy.
Definition param (c : curve_params) (v : gvar) : Z :=
  match v with gP => cp_p c | gN => cp_n c | gA => cp_a c | gB => cp_b c | gGx => cp_gx c | gGy => cp_gy c end.
Record globals := mkGlobals {
  g_var : gvar -> Z;
  g_G : Z * Z;
  g_Instance : option nat;      (* Crypto._Instance (Crypto.py:11): None or an object *)
  g_objects : nat               (* CryptoInstance objects made so far: the next one gets this number *)
}.
(** after the imports *)
Definition fresh_globals : globals :=
  mkGlobals (param bitcoin_default) (cp_gx bitcoin_default, cp_gy bitcoin_default) None 0.

Inductive instr :=
| IStore (v : gvar) (z : Z)  (* a module variable is assigned *)
| ILoadGx | ILoadGy          (* Gx and Gy are loaded for the tuple (Gx, Gy) *)
| IStoreG                    (* G = (Gx, Gy) *)
| IRead (v : gvar) | IReadG  (* the arithmetic of bitcoin looks at a variable *)
| ITest                      (* if not Crypto._Instance: (Crypto.py:35) *)
| INew                       (* CryptoInstance() (:36): the object is made, then its __init__ runs *)
| IStoreInstance             (* Crypto._Instance = the object (:36) *)
| IReturn.                   (* return Crypto._Instance (:37) *)

(** bitcoin.change_curve(p, n, a, b, gx, gy): `P, N, A, B, Gx, Gy = p, n, a, b, gx, gy` and then
    `G = (Gx, Gy)` *)
Definition change_curve_code (c : curve_params) : list instr :=
  [IStore gP (cp_p c); IStore gN (cp_n c); IStore gA (cp_a c); IStore gB (cp_b c); IStore gGx (cp_gx c); IStore gGy (cp_gy c);
   ILoadGx; ILoadGy; IStoreG].
(** Crypto.py:36 when the test found no instance: CryptoInstance.__init__ (:173-174) sets up the curve *)
Definition make_instance : list instr := INew :: change_curve_code SetupSignatureCurve ++ [IStoreInstance].

(** What a thread may call.  [reads] are the variables the arithmetic of that call looks at, in order:
    any list, None standing for G. *)
Inductive tcall :=
| TKeyPair (reads : list (option gvar))   (* KeyPair(priv_key): setup_curve (KeyPair.py:49) comes first *)
| TDefault                                (* Crypto.Default() *)
| TStatic (reads : list (option gvar)).   (* Crypto.Sign, Crypto.VerifySignature, or an instance's methods *)
Definition read_code (r : option gvar) : instr := match r with Some v => IRead v | None => IReadG end.
Definition code_of (k : tcall) : list instr :=
  match k with
  | TKeyPair reads => change_curve_code setup_curve ++ map read_code reads
  | TDefault => [ITest; IReturn]
  | TStatic reads => map read_code reads
  end.
Definition program (calls : list tcall) : list instr := flat_map code_of calls.

(** what a thread has got from the shared variables *)
Inductive seen := SeenVar (v : gvar) (z : Z) | SeenG (g : Z * Z) | SeenInstance (i : option nat).
(** a thread: the steps to do, its temporaries, what it has got so far (latest first) *)
Record thread := mkThread { t_code : list instr; t_x : Z; t_y : Z; t_new : option nat; t_seen : list seen }.
Definition start (calls : list tcall) : thread := mkThread (program calls) 0 0 None [].

Definition gvar_eqb (a b : gvar) : bool :=
  match a, b with gP, gP | gN, gN | gA, gA | gB, gB | gGx, gGx | gGy, gGy => true | _, _ => false end.
Definition set_var (g : globals) (v : gvar) (z : Z) : globals :=
  mkGlobals (fun w => if gvar_eqb w v then z else g_var g w) (g_G g) (g_Instance g) (g_objects g).

(** one step of a thread *)
Definition tstep (g : globals) (t : thread) : globals * thread :=
  match t_code t with
  | [] => (g, t)
  | i :: r =>
      match i with
      | IStore v z => (set_var g v z, mkThread r (t_x t) (t_y t) (t_new t) (t_seen t))
      | ILoadGx => (g, mkThread r (g_var g gGx) (t_y t) (t_new t) (t_seen t))
      | ILoadGy => (g, mkThread r (t_x t) (g_var g gGy) (t_new t) (t_seen t))
      | IStoreG => (mkGlobals (g_var g) (t_x t, t_y t) (g_Instance g) (g_objects g), mkThread r (t_x t) (t_y t) (t_new t) (t_seen t))
      | IRead v => (g, mkThread r (t_x t) (t_y t) (t_new t) (SeenVar v (g_var g v) :: t_seen t))
      | IReadG => (g, mkThread r (t_x t) (t_y t) (t_new t) (SeenG (g_G g) :: t_seen t))
      | ITest =>
          let r := match g_Instance g with Some _ => r | None => make_instance ++ r end in
          (g, mkThread r (t_x t) (t_y t) (t_new t) (t_seen t))
      | INew => (mkGlobals (g_var g) (g_G g) (g_Instance g) (S (g_objects g)), mkThread r (t_x t) (t_y t) (Some (g_objects g)) (t_seen t))
      | IStoreInstance => (mkGlobals (g_var g) (g_G g) (t_new t) (g_objects g), mkThread r (t_x t) (t_y t) (t_new t) (t_seen t))
      | IReturn => (g, mkThread r (t_x t) (t_y t) (t_new t) (SeenInstance (g_Instance g) :: t_seen t))
      end
  end.

(** the process: the shared variables and the threads; [run] follows a schedule, a list of thread
    numbers (numbers without a thread are skipped) *)
Record process := mkProcess { p_globals : globals; p_threads : list thread }.
Fixpoint update {A} (l : list A) (n : nat) (x : A) : list A :=
  match l, n with [], _ => [] | _ :: r, O => x :: r | y :: r, S k => y :: update r k x end.
Definition pstep (p : process) (n : nat) : process :=
  match nth_error (p_threads p) n with
  | None => p
  | Some t => let '(g, t') := tstep (p_globals p) t in mkProcess g (update (p_threads p) n t')
  end.
Definition run (p : process) (schedule : list nat) : process := fold_left pstep schedule p.
(** a process whose threads are to make the given calls *)
Definition launch (g : globals) (calls : list (list tcall)) : process := mkProcess g (map start calls).
