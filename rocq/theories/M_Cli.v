(** * M_Cli: bin/cli.py, the command np-utils

    [options] is what parse_args() returns for a command line without -h and --version
    (argparse: M_Args).  The output is the list of lines on standard output; argparse's
    usage text and the traceback of an exception nobody catches go to standard error. *)
From Coq Require Import String.
From Verif Require Import M_Py M_Hash M_UInt M_Base58 M_Helper M_ECCurve M_KeyPair.

Record options := mkOptions {
  o_any : bool;                              (* len(sys.argv) > 1 *)
  o_address_to_scripthash : option pystr;
  o_scripthash_to_address : option pystr;
  o_create_wallet : bool }.

Inductive ending := EndOfMain | Exit (status : Z) | Uncaught (e : exn).
(** what the shell sees *)
Definition exit_status (x : ending) : Z := match x with EndOfMain => 0 | Exit n => n | Uncaught _ => 1 end.

(** repr() of bytes: single quotes unless there are single quotes and no double quotes inside *)
Definition repr_quote (b : bytes) : Z :=
  if existsb (fun c => b2z c =? 39) b && negb (existsb (fun c => b2z c =? 34) b) then 34 else 39.
Definition repr_byte (q : Z) (x : byte) : pystr :=
  let c := b2z x in
  if (c =? q) || (c =? 92) then [92; c]
  else if c =? 9 then [92; 116]
  else if c =? 10 then [92; 110]
  else if c =? 13 then [92; 114]
  else if (c <? 32) || (127 <=? c) then [92; 120; hexdigit (c / 16); hexdigit (c mod 16)]
  else [c].
Definition bytes_repr (b : bytes) : pystr :=
  let q := repr_quote b in [98; q] ++ concat (map (repr_byte q) b) ++ [q].

(** one part of main: lines printed, and how the program ends there, if it does *)
Definition step := (list pystr * option ending)%type.
Definition and_then (a : step) (b : step) : step :=
  let '(l, x) := a in match x with Some _ => a | None => let '(l', y) := b in (l ++ l', y) end.

(** bin/cli.py:84-93 (main); the message of ConversionError: :35 *)
Definition address_part (H : hashes) (rs : bool) (o : option pystr) : step :=
  match o with
  | None => ([], None)
  | Some address =>
      match cli_address_to_scripthash H rs address with
      | Ok scripthash =>
          ([str "Scripthash big endian:  0x" ++ hex (rev scripthash);
            str "Scripthash little endian: " ++ hex scripthash;
            str "Scripthash neo-python format: " ++ bytes_repr scripthash], None)
      | Raise ConversionError => ([str "Invalid address: invalid checksum"], Some (Exit 1))
      | Raise e => ([], Some (Uncaught e))
      end
  end.
(** bin/cli.py:43-48: what scripthash_to_address prints *)
Definition conversion_lines (scripthash : pystr) : list pystr :=
  if list_eq_dec Z.eq_dec (firstn 2 scripthash) (str "0x") then []
  else str "Detected little endian scripthash. Converting to big endian for internal use." ::
       match unhexlify (VStr scripthash) with
       | Ok b => [str "Big endian scripthash: 0x" ++ hex (rev b)]
       | Raise _ => []
       end.
(** bin/cli.py:95-101 (main), with the prints of :43-48 and the message of :51 *)
Definition scripthash_part (H : hashes) (o : option pystr) : step :=
  match o with
  | None => ([], None)
  | Some scripthash =>
      match cli_scripthash_to_address H scripthash with
      | Ok address => (conversion_lines scripthash ++ [address], None)
      | Raise ConversionError => (conversion_lines scripthash ++ [str "Wrong format"], Some (Exit 1))
      | Raise e => (conversion_lines scripthash, Some (Uncaught e))
      end
  end.
(** bin/cli.py:54-60 create_wallet; [random] is what Random.get_random_bytes(32) returns *)
Definition create_wallet (H : hashes) (L : keylib) (random : bytes) : res (pystr * pystr) :=
  do kp <- new_KeyPair H L (VBytes random);
  do address <- GetAddress H kp;
  Ok (Export H kp, address).
(** bin/cli.py:103-105 (main).  json.dumps escapes nothing in Base58 text. *)
Definition wallet_part (H : hashes) (L : keylib) (random : bytes) (o : bool) : step :=
  if o then
    match create_wallet H L random with
    | Ok (private_key, address) =>
        ([str "{"; str "  ""private_key"": """ ++ private_key ++ str """,";
          str "  ""address"": """ ++ address ++ str """"; str "}"], None)
    | Raise e => ([], Some (Uncaught e))
    end
  else ([], None).
(** bin/cli.py:63-105 main *)
Definition main (H : hashes) (L : keylib) (rs : bool) (random : bytes) (o : options) : list pystr * ending :=
  if negb (o_any o) then ([], Exit 1)
  else
    let '(lines, x) := and_then (address_part H rs (o_address_to_scripthash o))
                        (and_then (scripthash_part H (o_scripthash_to_address o))
                                  (wallet_part H L random (o_create_wallet o))) in
    (lines, match x with Some e => e | None => EndOfMain end).
