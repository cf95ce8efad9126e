(** * M_UInt: neocore/UIntBase.py, UInt160.py, UInt256.py

    The stream methods Serialize/Deserialize are in M_Writer/M_Reader, the
    sharing of a caller's bytearray is in M_UIntHeap. *)
From Coq Require Import String.
From Verif Require Import M_Py.

(** type(obj): UIntBase itself or one of its two subclasses. *)
Inductive ucls : Set := CUIntBase | CUInt160 | CUInt256.

(** UIntBase.py:6-8: the attributes Data and __hash.  Whether Data is bytes or
    bytearray only matters for sharing (M_UIntHeap), so it is not recorded here. *)
Record uint := mkUInt { u_cls : ucls; u_data : bytes; u_hash : Z }.

(** UIntBase.py:33-36 GetHashCode *)
Definition GetHashCode (data : bytes) : Z :=
  let slice_length := if 4 <=? zlen data then 4%nat else length data in
  le2z (firstn slice_length data).

(** UIntBase.py:10-27 __init__(num_bytes, data) *)
Definition UIntBase_init (cls : ucls) (num_bytes : nat) (data : pyval) : res uint :=
  let build d := Ok (mkUInt cls d (GetHashCode d)) in
  match data with
  | VNone => build (repeat x00 num_bytes)
  | _ =>
      do n <- py_len data;
      if negb (n =? Z.of_nat num_bytes) then Raise PlainException
      else match data with
           | VBytes b => build b
           | VBytearray b => build b
           | _ => Raise PlainException
           end
  end.

(** UIntBase.py / UInt160.py:5-6 / UInt256.py:5-6 constructors *)
Definition new_UIntBase (num_bytes : nat) (data : pyval) : res uint :=
  UIntBase_init CUIntBase num_bytes data.
Definition new_UInt160 (data : pyval) : res uint := UIntBase_init CUInt160 20 data.
Definition new_UInt256 (data : pyval) : res uint := UIntBase_init CUInt256 32 data.

(** UIntBase.py:29-31 Size *)
Definition Size (u : uint) : nat := length (u_data u).
(** UIntBase.py:45-46 ToArray *)
Definition ToArray (u : uint) : bytes := u_data u.
(** UIntBase.py:48-51 ToString, :80-81 __str__ *)
Definition ToString (u : uint) : pystr := hex (rev (u_data u)).
(** UIntBase.py:53-54 ToString2 *)
Definition ToString2 (u : uint) : pystr := hex (u_data u).
(** UIntBase.py:56-57 To0xString *)
Definition To0xString (u : uint) : pystr := str "0x" ++ ToString u.
(** UIntBase.py:59-60 ToBytes: the text as ASCII bytes *)
Definition ToBytes (u : uint) : bytes := map z2b (ToString u).

(** UIntBase.py:62-75 __eq__; [None] stands for any non-UIntBase object
    (including Python None).  `other is self` implies equal Data. *)
Definition uint_eq (self : uint) (other : option uint) : bool :=
  match other with
  | None => false
  | Some o => if list_eq_dec Byte.byte_eq_dec (u_data self) (u_data o) then true else false
  end.

(** UIntBase.py:77-78 __hash__ *)
Definition uint_hash (u : uint) : Z := u_hash u.

(** UIntBase.py:95-99: for i in range(length - 1, 0, -1) -- index 0 is not visited. *)
Fixpoint compare_loop (i : nat) (x y : bytes) : Z :=
  match i with
  | O => 0
  | S k =>
      let xi := b2z (nth i x x00) in
      let yi := b2z (nth i y x00) in
      if xi >? yi then 1
      else if xi <? yi then -1
      else compare_loop k x y
  end.

(** UIntBase.py:83-101 CompareTo *)
Definition CompareTo (self : uint) (other : option uint) : res Z :=
  match other with
  | None => Raise PlainException
  | Some o =>
      let x := ToArray self in
      let y := ToArray o in
      if negb (zlen x =? zlen y) then Raise PlainException
      else Ok (compare_loop (length x - 1) x y)
  end.

(** UIntBase.py:103-113 *)
Definition uint_lt (a : uint) (b : option uint) : res bool := do c <- CompareTo a b; Ok (c <? 0).
Definition uint_gt (a : uint) (b : option uint) : res bool := do c <- CompareTo a b; Ok (c >? 0).
Definition uint_le (a : uint) (b : option uint) : res bool := do c <- CompareTo a b; Ok (c <=? 0).
Definition uint_ge (a : uint) (b : option uint) : res bool := do c <- CompareTo a b; Ok (c >=? 0).

(** value[0:2] == '0x' and value[2:] *)
Definition strip_0x (value : pystr) : pystr :=
  if list_eq_dec Z.eq_dec (firstn 2 value) (str "0x") then skipn 2 value else value.

(** UInt160.py:8-16 ParseString *)
Definition UInt160_ParseString (value : pystr) : res uint :=
  let value := strip_0x value in
  if negb (zlen value =? 40) then Raise PlainException
  else do reversed_data <- fromhex value;
       new_UInt160 (VBytearray (rev reversed_data)).

(** UInt256.py:8-16 ParseString *)
Definition UInt256_ParseString (value : pystr) : res uint :=
  let value := strip_0x value in
  if negb (zlen value =? 64) then Raise PlainException
  else do reversed_data <- fromhex value;
       new_UInt256 (VBytearray (rev reversed_data)).
