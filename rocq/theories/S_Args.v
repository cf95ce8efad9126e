(** * S_Args: vocabulary for C118 *)
From Coq Require Import String.
From Verif Require Import M_Py M_Cli M_Args.

(** the options a command line gives *)
Inductive setting := Address (v : pystr) | Scripthash (v : pystr) | Wallet.
(** [n] is the option --word in full or cut after at least one letter. *)
Definition means (n : pystr) (word : pystr) : Prop := exists r, n ++ r = str "--" ++ word /\ (2 < length n)%nat.
(** [s] would be taken for an option. *)
Definition like_an_option (s : pystr) : Prop :=
  (exists r, s = str "-h" ++ r) \/ (exists r, s = str "--" ++ 61 :: r) \/ s = str "--" \/
  exists n word, In word (map str ["help"; "version"; "address-to-scripthash"; "scripthash-to-address"; "create-wallet"]%string) /\
    means n word /\ (s = n \/ exists v, s = n ++ 61 :: v).
(** [v] can be given as an argument of its own after an option. *)
Definition a_value (E : argenv) (v : pystr) : Prop :=
  (forall r, v <> str "-" ++ r) \/ v = str "-" \/ ((looks_negative E v = true \/ In 32 v) /\ ~ like_an_option v).
(** The command lines that set options and ask for nothing else. *)
Inductive command_line (E : argenv) : list pystr -> list setting -> Prop :=
| cl_nil : command_line E [] []
| cl_address n v r l : means n (str "address-to-scripthash") -> a_value E v -> command_line E r l -> command_line E (n :: v :: r) (Address v :: l)
| cl_address_eq n v r l : means n (str "address-to-scripthash") -> command_line E r l -> command_line E ((n ++ 61 :: v) :: r) (Address v :: l)
| cl_scripthash n v r l : means n (str "scripthash-to-address") -> a_value E v -> command_line E r l -> command_line E (n :: v :: r) (Scripthash v :: l)
| cl_scripthash_eq n v r l : means n (str "scripthash-to-address") -> command_line E r l -> command_line E ((n ++ 61 :: v) :: r) (Scripthash v :: l)
| cl_wallet n r l : means n (str "create-wallet") -> command_line E r l -> command_line E (n :: r) (Wallet :: l).
(** Of several values for one option the last one counts. *)
Fixpoint last_value (f : setting -> option pystr) (l : list setting) : option pystr :=
  match l with
  | [] => None
  | s :: r => match last_value f r with Some v => Some v | None => f s end
  end.
Definition the_address (s : setting) := match s with Address v => Some v | _ => None end.
Definition the_scripthash (s : setting) := match s with Scripthash v => Some v | _ => None end.
Definition options_of (argv : list pystr) (l : list setting) : options :=
  mkOptions (negb (Nat.eqb (length argv) 0)) (last_value the_address l) (last_value the_scripthash l)
    (existsb (fun s => match s with Wallet => true | _ => false end) l).
(** asking for the help or the version number *)
Definition asks_help (s : pystr) : Prop := s = str "-h" \/ means s (str "help").
Definition asks_version (s : pystr) : Prop := means s (str "version").
