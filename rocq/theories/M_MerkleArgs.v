(** * M_MerkleArgs: MerkleTree.py with arguments of other types

    M_Merkle has lists of UInt objects and flags as bytes.  Here the elements of the list and the
    flags may be other Python values: the docstrings of MerkleTree.py:58-60 ("each hash is of bytearray
    type") and :157-158 (flags: "0000") ask for bytearrays and for a text. *)
From Verif Require Import M_Py M_Hash M_UInt M_Helper M_ECCurve M_Merkle.

(** an element of the list of hashes: a UInt object, or another value; those have no method ToArray *)
Inductive mval := MUInt (u : uint) | MVal (v : pyval).
Definition as_hash (x : mval) : option uint := match x with MUInt u => Some u | MVal _ => None end.

(** MerkleTree.py:55-67 __init__; node.Hash.ToArray() (:98) raises AttributeError for values without
    ToArray, as M_Merkle.hash_array does for a node without UInt.  The values themselves stay with the caller: leaf
    number i is node length h + i. *)
Definition new_MerkleTree_any (H : hashes) (xs : list mval) (h : heap) : option (res mtree * heap) :=
  let leaves := seq (length h) (length xs) in
  let h := h ++ map (fun x => new_node (as_hash x)) xs in
  match build (length xs) H leaves h with
  | None => None
  | Some (Raise e, h') => Some (Raise e, h')
  | Some (Ok root, h') =>
      match left_depth (length h') h' root 1 with
      | None => None
      | Some depth => Some (Ok (mkTree root depth), h')
      end
  end.
(** MerkleTree.py:109-125 ComputeRoot *)
Definition ComputeRoot_any (H : hashes) (xs : list mval) : option (res mval) :=
  match xs with
  | [] => Some (Raise PlainException)
  | [x] => Some (Ok x)
  | _ =>
      match new_MerkleTree_any H xs [] with
      | None => None
      | Some (Raise e, _) => Some (Raise e)
      | Some (Ok t, h) => Some (match n_Hash (deref h (t_Root t)) with Some u => Ok (MUInt u) | None => Raise AttributeError end)
      end
  end.
(** hash(v), as set.add needs it: bytearrays have none; [None] for objects that are not modelled *)
Definition hashable (v : pyval) : option bool :=
  match v with VBytearray _ => Some false | VOther => None | _ => Some true end.
(** MerkleTree.py:127-151 ToHashArray of the tree over a list with one element *)
Definition ToHashArray_one (x : mval) : option (res (list mval)) :=
  match x with
  | MUInt u => Some (Ok [x])
  | MVal v => match hashable v with Some true => Some (Ok [x]) | Some false => Some (Raise TypeError) | None => None end
  end.

(** the argument flags: a value or a list *)
Inductive flags_arg := FVal (v : pyval) | FList (l : list pyval).
(** an element of a list given to bytearray(): TypeError unless it is an int, ValueError unless in range(256) *)
Definition byte_of (v : pyval) : res byte :=
  match as_int v with
  | Some z => if (0 <=? z) && (z <? 256) then Ok (z2b z) else Raise ValueError
  | None => Raise TypeError
  end.
Fixpoint bytes_of_list (l : list pyval) : res bytes :=
  match l with [] => Ok [] | v :: r => do b <- byte_of v; do bs <- bytes_of_list r; Ok (b :: bs) end.
(** bytearray(flags): a number n makes n zero bytes, OverflowError from 2^63 on (running out of memory
    before that is not modelled); TypeError for text, None and objects that are not iterable *)
Definition bytearray_of (f : flags_arg) : res bytes :=
  match f with
  | FVal (VBytes b) | FVal (VBytearray b) => Ok b
  | FList l => bytes_of_list l
  | FVal v =>
      match as_int v with
      | Some z => if 2 ^ 63 <=? z then Raise OverflowError else if z <? - 2 ^ 63 then Raise OverflowError
                  else if z <? 0 then Raise ValueError else Ok (repeat x00 (Z.to_nat z))
      | None => Raise TypeError
      end
  end.
(** MerkleTree.py:153-166 Trim *)
Definition Trim_any (t : mtree) (flags : flags_arg) (h : heap) : option (res unit * heap) :=
  match bytearray_of flags with
  | Ok b => Trim t b h
  | Raise e => Some (Raise e, h)
  end.
