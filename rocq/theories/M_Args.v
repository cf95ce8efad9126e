(** * M_Args: the command line of np-utils, as argparse reads it (bin/cli.py:64-78)

    argparse is part of Python; modelled from its source (3.4 - 3.11) for the one parser cli.py makes:
    no positional arguments, prefix character '-', abbreviations allowed. *)
From Coq Require Import String.
From Verif Require Import M_Py M_Hash M_KeyPair M_Cli.

Inductive opt := OHelp | OVersion | OAddress | OScripthash | OWallet.
(** bin/cli.py:64-76 ArgumentParser() adds -h and --help, then the add_argument calls *)
Definition option_strings : list (pystr * opt) :=
  [(str "-h", OHelp); (str "--help", OHelp); (str "--version", OVersion); (str "--address-to-scripthash", OAddress);
   (str "--scripthash-to-address", OScripthash); (str "--create-wallet", OWallet)].

(** What is not fixed here: [looks_negative s] - argparse takes s for a negative number (a regular
    expression with \d, so the Unicode digits); the lines of the help text; and what is printed and how
    the program ends for an argument -hX, which differs between the releases (a usage error, the
    help, or a crash; it never goes on). *)
Record argenv := mkArgenv {
  looks_negative : pystr -> bool;
  help_lines : list pystr;
  after_h : pystr -> list pystr * ending }.

(** what argparse takes an argument for *)
Inductive item :=
| IArg                                        (* not an option *)
| IDash                                       (* -- *)
| IUnknown                                    (* an option the parser does not have *)
| IOpt (o : opt) (explicit : option pystr)    (* an option, perhaps with =value *)
| IShort                                      (* -h followed by something *)
| IAmbiguous.                                 (* the beginning of several options *)

(** str.partition('=') *)
Fixpoint partition_eq (s : pystr) : pystr * option pystr :=
  match s with
  | [] => ([], None)
  | c :: r => if c =? 61 then ([], Some r) else let '(n, e) := partition_eq r in (c :: n, e)
  end.
Fixpoint starts (p s : pystr) : bool :=
  match p, s with
  | [], _ => true
  | c :: p', d :: s' => (c =? d) && starts p' s'
  | _ :: _, [] => false
  end.
Definition find_option (s : pystr) : option opt :=
  match find (fun p => if list_eq_dec Z.eq_dec (fst p) s then true else false) option_strings with Some p => Some (snd p) | None => None end.
(** argparse _parse_optional, _get_option_tuples.  For one dash the only option string is -h, and an
    argument that begins with it is IShort or (with -h= or -h itself) found before. *)
Definition classify (E : argenv) (s : pystr) : item :=
  match s with
  | [] => IArg
  | c :: r =>
      if negb (c =? 45) then IArg
      else match find_option s with
      | Some o => IOpt o None
      | None =>
          match r with
          | [] => IArg
          | d :: _ =>
              let '(n, e) := partition_eq s in
              match e, find_option n with
              | Some v, Some OHelp => if list_eq_dec Z.eq_dec n (str "-h") then IShort else IOpt OHelp e
              | Some v, Some o => IOpt o e
              | _, _ =>
                  let rest := if looks_negative E s then IArg else if existsb (Z.eqb 32) s then IArg else IUnknown in
                  if d =? 45 then
                    match filter (fun p => starts n (fst p)) option_strings with
                    | [] => rest
                    | [p] => IOpt (snd p) e
                    | _ => IAmbiguous
                    end
                  else if d =? 104 then IShort else rest
              end
          end
      end
  end.
(** all arguments after -- are no options; an ambiguous one is an error whatever the others are *)
Fixpoint classify_all (E : argenv) (l : list pystr) : option (list (item * pystr)) :=
  match l with
  | [] => Some []
  | s :: r =>
      if list_eq_dec Z.eq_dec s (str "--") then Some ((IDash, s) :: map (fun x => (IArg, x)) r)
      else match classify E s with
      | IAmbiguous => None
      | i => match classify_all E r with Some t => Some ((i, s) :: t) | None => None end
      end
  end.

Inductive parsed := POptions (o : options) | PHelp | PVersion | PUsage | PShort (s : pystr).
(** argparse _parse_known_args, parse_args: the options one after another.  [extras]: something was
    not recognised, which is an error in the end, but -h and --version come first. *)
Fixpoint consume (l : list (item * pystr)) (o : options) (extras : bool) : parsed :=
  match l with
  | [] => if extras then PUsage else POptions o
  | ((IArg | IDash | IUnknown | IAmbiguous), _) :: r => consume r o true
  | (IShort, s) :: _ => PShort s
  | (IOpt _ (Some _) as i, s) :: r =>
      match i with
      | IOpt OAddress (Some v) => consume r (mkOptions (o_any o) (Some v) (o_scripthash_to_address o) (o_create_wallet o)) extras
      | IOpt OScripthash (Some v) => consume r (mkOptions (o_any o) (o_address_to_scripthash o) (Some v) (o_create_wallet o)) extras
      | _ => PUsage                              (* ignored explicit argument *)
      end
  | (IOpt OHelp None, _) :: _ => PHelp
  | (IOpt OVersion None, _) :: _ => PVersion
  | (IOpt OWallet None, _) :: r => consume r (mkOptions (o_any o) (o_address_to_scripthash o) (o_scripthash_to_address o) true) extras
  | (IOpt OAddress None, _) :: r =>
      match r with
      | (IArg, v) :: r' => consume r' (mkOptions (o_any o) (Some v) (o_scripthash_to_address o) (o_create_wallet o)) extras
      | _ => PUsage                              (* expected 1 argument *)
      end
  | (IOpt OScripthash None, _) :: r =>
      match r with
      | (IArg, v) :: r' => consume r' (mkOptions (o_any o) (o_address_to_scripthash o) (Some v) (o_create_wallet o)) extras
      | _ => PUsage
      end
  end.
(** bin/cli.py:78 parser.parse_args(), and the defaults of the options; [o_any]: len(sys.argv) > 1 *)
Definition parse_args (E : argenv) (argv : list pystr) : parsed :=
  match classify_all E argv with
  | None => PUsage
  | Some l => consume l (mkOptions (match argv with [] => false | _ => true end) None None false) false
  end.
(** bin/cli.py:63-105 main for sys.argv[1:] = argv; neocore/__init__.py:7 __version__.  What argparse
    writes to standard error is not modelled. *)
Definition np_utils (E : argenv) (H : hashes) (L : keylib) (rs : bool) (random : bytes) (argv : list pystr) : list pystr * ending :=
  match parse_args E argv with
  | POptions o => main H L rs random o
  | PHelp => (help_lines E, Exit 0)
  | PVersion => ([str "neocore v0.5.7-dev"], Exit 0)
  | PUsage => ([], Exit 2)
  | PShort s => after_h E s
  end.
