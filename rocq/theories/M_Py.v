(** * M_Py: the pieces of the Python 3 runtime that neocore calls.

    Nothing here is neocore code; these are the CPython behaviours the model of
    /repo rests on (trusted, see DESIGN.md).  Each definition names the Python
    function it stands for and the places in /repo that call it. *)

From Coq Require Import String Ascii.
From Coq Require Export Init.Byte Strings.Byte.
From Coq Require Export NArith ZArith Bool List.
Export ListNotations.
Open Scope Z_scope.

(** ** Exceptions and results *)

(** The exception classes raised by /repo or by the runtime on its behalf. *)
Inductive exn : Set :=
| StructError            (* struct.error *)
| BinasciiError          (* binascii.Error, a subclass of ValueError *)
| ValueError
| TypeError
| OverflowError
| IndexError
| ZeroDivisionError
| UnicodeError           (* UnicodeEncodeError / UnicodeDecodeError, subclasses of ValueError *)
| AssertionError
| AttributeError
| NotImplementedError
| ConversionError        (* neocore/bin/cli.py:20 *)
| DecimalOverflow        (* decimal.Overflow, a subclass of ArithmeticError *)
| InvalidOperation       (* decimal.InvalidOperation, likewise *)
| PlainException.        (* raise Exception("...") *)

(** `except ValueError` also catches its subclasses (used at Utils.py:12). *)
Definition is_ValueError (e : exn) : bool :=
  match e with ValueError | BinasciiError | UnicodeError => true | _ => false end.

Inductive res (A : Type) : Type :=
| Ok (a : A)
| Raise (e : exn).
Arguments Ok {A} a.
Arguments Raise {A} e.

Definition rbind {A B} (m : res A) (f : A -> res B) : res B :=
  match m with Ok a => f a | Raise e => Raise e end.
Definition rmap {A B} (f : A -> B) (m : res A) : res B :=
  match m with Ok a => Ok (f a) | Raise e => Raise e end.
Notation "'do' x <- m ; f" := (rbind m (fun x => f))
  (at level 200, x name, m at level 100, f at level 200, right associativity).

(** ** bytes, str and dynamically typed values *)

Definition bytes := list byte.
(** A Python str is the list of its code points (0 .. 0x10FFFF). *)
Definition pystr := list Z.

Definition b2z (b : byte) : Z := Z.of_N (Byte.to_N b).
Definition z2b (z : Z) : byte :=
  match Byte.of_N (Z.to_N (z mod 256)) with Some b => b | None => x00 end.

Definition zlen {A} (l : list A) : Z := Z.of_nat (length l).

(** Text literals. *)
Fixpoint str (s : string) : pystr :=
  match s with
  | EmptyString => []
  | String a r => Z.of_N (N_of_ascii a) :: str r
  end.
(** b'...' literals. *)
Definition bstr (s : string) : bytes := map z2b (str s).

(** Arguments whose Python type matters to /repo code (BinaryWriter.py:81-86,
    320; UIntBase.py:20-25).  VBig is neocore's BigInteger, an int subclass;
    VOther is any object of none of the other types (and without len/index). *)
Inductive pyval : Type :=
| VBytes (b : bytes)
| VBytearray (b : bytes)
| VStr (s : pystr)
| VInt (z : Z)
| VBool (b : bool)
| VBig (z : Z)
| VNone
| VOther.

Definition z_of_bool (b : bool) : Z := if b then 1 else 0.

(** isinstance(v, int), with the integer value. *)
Definition as_int (v : pyval) : option Z :=
  match v with
  | VInt z | VBig z => Some z
  | VBool b => Some (z_of_bool b)
  | _ => None
  end.

(** len(v) *)
Definition py_len (v : pyval) : res Z :=
  match v with
  | VBytes b | VBytearray b => Ok (zlen b)
  | VStr s => Ok (zlen s)
  | _ => Raise TypeError
  end.

(** bool(v), as struct.pack('?', v) uses it; VOther objects are truthy. *)
Definition truthy (v : pyval) : bool :=
  match v with
  | VBytes b | VBytearray b => match b with [] => false | _ => true end
  | VStr s => match s with [] => false | _ => true end
  | VInt z | VBig z => negb (z =? 0)
  | VBool b => b
  | VNone => false
  | VOther => true
  end.

(** ** Base-256 numbers *)

(** int.from_bytes(l, 'little') *)
Fixpoint le2z (l : bytes) : Z :=
  match l with [] => 0 | b :: r => b2z b + 256 * le2z r end.

(** The low [n] base-256 digits of z, least significant first. *)
Fixpoint z2le (n : nat) (z : Z) : bytes :=
  match n with O => [] | S k => z2b z :: z2le k (z / 256) end.

Inductive endian : Set := LE | BE.

Definition order_bytes (e : endian) (l : bytes) : bytes :=
  match e with LE => l | BE => rev l end.

Definition z2bytes (e : endian) (n : nat) (z : Z) : bytes := order_bytes e (z2le n z).
Definition bytes2z (e : endian) (l : bytes) : Z := le2z (order_bytes e l).

(** int.from_bytes(l, e, signed=sg) *)
Definition int_from_bytes (e : endian) (sg : bool) (l : bytes) : Z :=
  let u := bytes2z e l in
  if sg && (256 ^ zlen l <=? 2 * u) then u - 256 ^ zlen l else u.

(** The range of n-byte integers. *)
Definition int_min (sg : bool) (n : nat) : Z :=
  if sg then - (256 ^ Z.of_nat n / 2) else 0.
Definition int_max (sg : bool) (n : nat) : Z :=
  if sg then 256 ^ Z.of_nat n / 2 - 1 else 256 ^ Z.of_nat n - 1.
(** 0-byte signed: only 0 fits (256^0/2 = 0 would give max -1). *)
Definition int_fits (sg : bool) (n : nat) (z : Z) : bool :=
  match n with
  | O => z =? 0
  | _ => (int_min sg n <=? z) && (z <=? int_max sg n)
  end.

(** z.to_bytes(n, e, signed=sg) *)
Definition int_to_bytes (e : endian) (sg : bool) (n : nat) (z : Z) : res bytes :=
  if int_fits sg n z then Ok (z2bytes e n z) else Raise OverflowError.

(** z.bit_length() *)
Definition bit_length (z : Z) : Z := if z =? 0 then 0 else Z.log2 (Z.abs z) + 1.

(** ** struct (standard sizes, fixed endianness) *)

Definition struct_pack_int (e : endian) (sg : bool) (n : nat) (z : Z) : res bytes :=
  if int_fits sg n z then Ok (z2bytes e n z) else Raise StructError.

Definition struct_unpack_int (e : endian) (sg : bool) (n : nat) (l : bytes) : res Z :=
  if zlen l =? Z.of_nat n then Ok (int_from_bytes e sg l) else Raise StructError.

(** struct.pack('c', v) *)
Definition struct_pack_char (v : pyval) : res bytes :=
  match v with VBytes [b] => Ok [b] | _ => Raise StructError end.
Definition struct_unpack_char (l : bytes) : res bytes :=
  match l with [b] => Ok [b] | _ => Raise StructError end.

(** struct.pack('?', v) *)
Definition struct_pack_bool (v : pyval) : bytes := [if truthy v then x01 else x00].
Definition struct_unpack_bool (l : bytes) : res bool :=
  match l with [b] => Ok (negb (b2z b =? 0)) | _ => Raise StructError end.

(** struct.unpack('%ds' % n, l) *)
Definition struct_unpack_s (n : Z) (l : bytes) : res bytes :=
  if zlen l =? n then Ok l else Raise StructError.

(** ** Hexadecimal *)

(** Value of a hex digit given by its character code. *)
Definition hexval (c : Z) : option Z :=
  if (48 <=? c) && (c <=? 57) then Some (c - 48)
  else if (97 <=? c) && (c <=? 102) then Some (c - 87)
  else if (65 <=? c) && (c <=? 70) then Some (c - 55)
  else None.

Fixpoint unhex_codes (l : list Z) : option bytes :=
  match l with
  | [] => Some []
  | [_] => None
  | a :: b :: r =>
      match hexval a, hexval b, unhex_codes r with
      | Some h, Some l, Some t => Some (z2b (16 * h + l) :: t)
      | _, _, _ => None
      end
  end.

(** binascii.unhexlify(v): bytes-like or ASCII str; binascii.Error for odd
    length or a non-digit, ValueError for a non-ASCII str. *)
Definition unhexlify (v : pyval) : res bytes :=
  match v with
  | VBytes b | VBytearray b =>
      match unhex_codes (map b2z b) with Some r => Ok r | None => Raise BinasciiError end
  | VStr s =>
      if forallb (fun c => c <? 128) s then
        match unhex_codes s with Some r => Ok r | None => Raise BinasciiError end
      else Raise ValueError
  | _ => Raise TypeError
  end.

Definition hexdigit (d : Z) : Z := if d <? 10 then 48 + d else 87 + d.

(** b.hex() (a str); binascii.hexlify gives the same characters as bytes. *)
Fixpoint hex (b : bytes) : pystr :=
  match b with
  | [] => []
  | x :: r => hexdigit (b2z x / 16) :: hexdigit (b2z x mod 16) :: hex r
  end.
Definition hexlify (b : bytes) : bytes := map z2b (hex b).

(** ASCII whitespace as skipped by bytearray.fromhex. *)
Definition is_space (c : Z) : bool := (c =? 32) || ((9 <=? c) && (c <=? 13)).

(** bytearray.fromhex(s): digit pairs, whitespace allowed between pairs (CPython
    3.7+; 3.5/3.6 skip only the blank: there a tab or newline in a text of the right
    length makes ParseString raise ValueError instead of the later length check's
    Exception; what it accepts is the same). *)
Fixpoint fromhex_codes (l : pystr) : option bytes :=
  match l with
  | [] => Some []
  | a :: r =>
      if is_space a then fromhex_codes r
      else match r with
           | [] => None
           | b :: r' =>
               match hexval a, hexval b, fromhex_codes r' with
               | Some h, Some l, Some t => Some (z2b (16 * h + l) :: t)
               | _, _, _ => None
               end
           end
  end.
Definition fromhex (s : pystr) : res bytes :=
  match fromhex_codes s with Some b => Ok b | None => Raise ValueError end.

(** ** UTF-8 *)

Definition is_surrogate (c : Z) : bool := (55296 <=? c) && (c <=? 57343).

(** One code point of str.encode('utf-8'). *)
Definition utf8_char (c : Z) : bytes :=
  if c <? 128 then [z2b c]
  else if c <? 2048 then [z2b (192 + c / 64); z2b (128 + c mod 64)]
  else if c <? 65536 then
    [z2b (224 + c / 4096); z2b (128 + c / 64 mod 64); z2b (128 + c mod 64)]
  else
    [z2b (240 + c / 262144); z2b (128 + c / 4096 mod 64); z2b (128 + c / 64 mod 64); z2b (128 + c mod 64)].

Fixpoint utf8_chars (s : pystr) : bytes :=
  match s with [] => [] | c :: r => utf8_char c ++ utf8_chars r end.

(** s.encode('utf-8') : lone surrogates raise. *)
Definition utf8_encode (s : pystr) : res bytes :=
  if existsb is_surrogate s then Raise UnicodeError else Ok (utf8_chars s).

(** s.encode('ascii') *)
Definition ascii_encode (s : pystr) : res bytes :=
  if forallb (fun c => c <? 128) s then Ok (map z2b s) else Raise UnicodeError.

(** b.decode('utf-8') for ASCII-only b (the only decoding /repo performs, on
    hexlify and base58 output: BinaryWriter.py:373, Helper.py:84, KeyPair.py:187,233). *)
Definition ascii_decode (b : bytes) : pystr := map b2z b.

(** ** Slicing with non-negative bounds: l[i:j], l[-n:], l[:-n] *)
Definition slice {A} (i j : nat) (l : list A) : list A := firstn (j - i) (skipn i l).
Definition last_n {A} (n : nat) (l : list A) : list A := skipn (length l - n) l.
Definition drop_last {A} (n : nat) (l : list A) : list A := firstn (length l - n) l.

(** b.rstrip(b'\x00') and b.lstrip(c) *)
Fixpoint lstrip (c : byte) (l : bytes) : bytes :=
  match l with
  | [] => []
  | b :: r => if Byte.eqb b c then lstrip c r else l
  end.
Definition rstrip0 (l : bytes) : bytes := rev (lstrip x00 (rev l)).

(** ** io.BytesIO *)

Record stream := mkStream { content : bytes; position : nat }.

(** Computations on a stream: the stream state persists when they raise. *)
Definition io (A : Type) := stream -> res A * stream.
Definition iret {A} (a : A) : io A := fun s => (Ok a, s).
Definition iraise {A} (e : exn) : io A := fun s => (Raise e, s).
Definition ilift {A} (r : res A) : io A := fun s => (r, s).
Definition ibind {A B} (m : io A) (f : A -> io B) : io B :=
  fun s => match m s with
           | (Ok a, s') => f a s'
           | (Raise e, s') => (Raise e, s')
           end.
(** try: m except Exception: h *)
Definition itry {A} (m : io A) (h : exn -> io A) : io A :=
  fun s => match m s with
           | (Ok a, s') => (Ok a, s')
           | (Raise e, s') => h e s'
           end.
Notation "x <-- m ; f" := (ibind m (fun x => f))
  (at level 61, m at next level, f at level 200, right associativity).
Notation "m ;; f" := (ibind m (fun _ => f))
  (at level 61, f at level 200, right associativity).

(** sys.maxsize on a 64-bit build. *)
Definition maxsize : Z := 9223372036854775807.

(** stream.read(n): everything for n < 0, at most what is left otherwise; an int
    outside ssize_t raises OverflowError.  Called at BinaryReader.py:44,58,59,74. *)
Definition bio_read (n : Z) : io bytes := fun s =>
  if (n <? - maxsize - 1) || (maxsize <? n) then (Raise OverflowError, s)
  else
    let rest := skipn (position s) (content s) in
    let k := if n <? 0 then length rest else Z.to_nat (Z.min n (zlen rest)) in
    (Ok (firstn k rest), mkStream (content s) (position s + k)).

(** stream.write(b): overwrite at the position, zero-filling a gap.  Returns
    len(b).  Called at BinaryWriter.py:82,84,86,104. *)
Definition bio_write (b : bytes) : io Z := fun s =>
  match b with
  | [] => (Ok 0, s)
  | _ =>
      let c := content s in
      let p := position s in
      let padded := firstn p c ++ repeat x00 (p - length c) in
      (Ok (zlen b), mkStream (padded ++ b ++ skipn (p + length b) c) (p + length b))
  end.
