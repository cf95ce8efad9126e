(** * M_MerkleObj: neocore/Cryptography/MerkleTree.py over UInt objects that live on

    M_Merkle treats the hashes as values.  Here a node's Hash is a reference to a UInt object of
    M_UIntHeap, whose bytes may sit in a bytearray other objects share: a leaf node keeps the very
    object it was given (MerkleTree.py:19, :61), an inner node gets a new UInt256 (MerkleTree.py:99). *)
From Verif Require Import M_Py M_Hash M_UInt M_UIntHeap M_Helper M_ECCurve M_Merkle.

(** MerkleTree.py:6-19: the attributes of MerkleTreeNode; Hash is the number of a UInt object *)
Record onode := mkONode { on_Hash : option nat; on_Parent : option addr; on_LeftChild : option addr; on_RightChild : option addr }.
(** MerkleTree.py:12-19 MerkleTreeNode(hash) *)
Definition new_onode (hash : option nat) : onode := mkONode hash None None None.
Definition set_oHash (v : option nat) (n : onode) : onode := mkONode v (on_Parent n) (on_LeftChild n) (on_RightChild n).
Definition set_oParent (v : option addr) (n : onode) : onode := mkONode (on_Hash n) v (on_LeftChild n) (on_RightChild n).
Definition set_oLeft (v : option addr) (n : onode) : onode := mkONode (on_Hash n) (on_Parent n) v (on_RightChild n).
Definition set_oRight (v : option addr) (n : onode) : onode := mkONode (on_Hash n) (on_Parent n) (on_LeftChild n) v.

(** the UInt objects and bytearrays, and the tree nodes *)
Record mworld := mkMW { mw_world : world; mw_nodes : list onode }.
Definition oderef (s : mworld) (a : addr) : onode := nth a (mw_nodes s) (new_onode None).
(** a UInt object by its number; a number outside does not occur *)
Definition obj (w : world) (i : nat) : uobj := nth i (objs w) (mkObj CUInt256 (DImm []) 0).
(** what the object looks like at the moment (M_UIntHeap.view) *)
Definition seen (w : world) (i : nat) : uint := view w (obj w i).

Definition om (A : Type) : Type := mworld -> res A * mworld.
Definition oret {A} (a : A) : om A := fun s => (Ok a, s).
Definition olift {A} (r : res A) : om A := fun s => (r, s).
Definition obind {A B} (m : om A) (f : A -> om B) : om B := fun s =>
  match m s with (Ok a, s') => f a s' | (Raise e, s') => (Raise e, s') end.
Definition oget {A} (f : mworld -> A) : om A := fun s => (Ok (f s), s).
Definition oset (a : addr) (f : onode -> onode) : om unit := fun s => (Ok tt, mkMW (mw_world s) (M_Merkle.update a f (mw_nodes s))).
Definition oalloc (l : list onode) : om (list addr) := fun s => (Ok (seq (length (mw_nodes s)) (length l)), mkMW (mw_world s) (mw_nodes s ++ l)).
Notation "x <~ m ; f" := (obind m (fun x => f)) (at level 100, m at next level, f at level 200, right associativity).
Notation "m ;~ f" := (obind m (fun _ => f)) (at level 100, f at level 200, right associativity).
Fixpoint ofor {A} (l : list A) (body : A -> om unit) : om unit :=
  match l with [] => oret tt | x :: r => body x ;~ ofor r body end.

(** node.Hash.ToArray(): the bytes the object has now *)
Definition ohash_array (s : mworld) (n : onode) : res bytes :=
  match on_Hash n with Some i => Ok (data_of (mw_world s) (obj (mw_world s) i)) | None => Raise AttributeError end.
(** MerkleTree.py:99 UInt256(data=...) with a bytes argument: a new object on a new bytearray
    (UIntBase.py:20-21), or an exception when there are not 32 bytes *)
Definition onew_UInt256 (d : bytes) : om nat := fun s =>
  if zlen d =? 32 then (Ok (length (objs (mw_world s))), mkMW (ustep (mw_world s) (Construct CUInt256 32 (ABytes d))) (mw_nodes s))
  else (Raise PlainException, s).

(** MerkleTree.py:87-99: the body of the loop, for parent number i *)
Definition obuild_step (H : hashes) (leaves parents : list addr) (i : nat) : om unit :=
  let node := nth i parents 0%nat in
  let left := nth (i * 2) leaves 0%nat in
  oset node (set_oLeft (Some left)) ;~
  oset left (set_oParent (Some node)) ;~
  (if Nat.eqb (i * 2 + 1) (length leaves) then
     l <~ oget (fun s => on_LeftChild (oderef s node)) ;
     oset node (set_oRight l)
   else
     let right := nth (i * 2 + 1) leaves 0%nat in
     oset node (set_oRight (Some right)) ;~
     oset right (set_oParent (Some node))) ;~
  l <~ oget (fun s => match on_LeftChild (oderef s node) with Some a => ohash_array s (oderef s a) | None => Raise AttributeError end) ;
  r <~ oget (fun s => match on_RightChild (oderef s node) with Some a => ohash_array s (oderef s a) | None => Raise AttributeError end) ;
  hasharray <~ olift (do l <- l; do r <- r; Ok (l ++ r)) ;
  u <~ onew_UInt256 (bin_dbl_sha256 H hasharray) ;
  oset node (set_oHash (Some u)).

(** MerkleTree.py:70-101 __Build; [fuel] as in M_Merkle.build *)
Fixpoint obuild (fuel : nat) (H : hashes) (leaves : list addr) : mworld -> option (res addr * mworld) := fun s =>
  match leaves with
  | [] => Some (Raise PlainException, s)
  | [x] => Some (Ok x, s)
  | _ =>
      match fuel with
      | O => None
      | S fuel' =>
          match int_div (zlen leaves + 1) 2 with
          | Raise e => Some (Raise e, s)
          | Ok num_parents =>
              match (parents <~ oalloc (repeat (new_onode None) (Z.to_nat num_parents)) ;
                     ofor (seq 0 (Z.to_nat num_parents)) (obuild_step H leaves parents) ;~
                     oret parents) s with
              | (Ok parents, s') => obuild fuel' H parents s'
              | (Raise e, s') => Some (Raise e, s')
              end
          end
      end
  end.
(** MerkleTree.py:63-66: the depth loop, bounded by the number of nodes *)
Fixpoint oleft_depth (fuel : nat) (s : mworld) (i : addr) (depth : Z) : option Z :=
  match on_LeftChild (oderef s i) with
  | None => Some depth
  | Some j => match fuel with O => None | S f => oleft_depth f s j (depth + 1) end
  end.
(** MerkleTree.py:55-67 __init__, of a list of UInt objects *)
Definition onew_MerkleTree (H : hashes) (ids : list nat) (s : mworld) : option (res mtree * mworld) :=
  let leaves := seq (length (mw_nodes s)) (length ids) in
  let s := mkMW (mw_world s) (mw_nodes s ++ map (fun i => new_onode (Some i)) ids) in
  match obuild (length ids) H leaves s with
  | None => None
  | Some (Raise e, s') => Some (Raise e, s')
  | Some (Ok root, s') =>
      match oleft_depth (length (mw_nodes s')) s' root 1 with
      | None => None
      | Some depth => Some (Ok (mkTree root depth), s')
      end
  end.
(** MerkleTree.py:109-125 ComputeRoot: the number of the object it returns *)
Definition oComputeRoot (H : hashes) (ids : list nat) (s : mworld) : option (res nat * mworld) :=
  match ids with
  | [] => Some (Raise PlainException, s)
  | [x] => Some (Ok x, s)
  | _ =>
      match onew_MerkleTree H ids s with
      | None => None
      | Some (Raise e, s') => Some (Raise e, s')
      | Some (Ok t, s') => Some (match on_Hash (oderef s' (t_Root t)) with Some i => Ok i | None => Raise AttributeError end, s')
      end
  end.
(** set.add: an element is there already if one with the same hash() (cached by the object) compares
    equal (current bytes) *)
Definition oset_add (w : world) (hs : list nat) (i : nat) : list nat :=
  if existsb (fun j => (uint_hash (seen w j) =? uint_hash (seen w i)) && uint_eq (seen w j) (Some (seen w i))) hs then hs else hs ++ [i].
(** MerkleTree.py:127-140 __DepthFirstSearch (a leaf without Hash does not occur and is cut off) *)
Fixpoint odfs (fuel : nat) (s : mworld) (node : addr) (hs : list nat) : option (res (list nat)) :=
  match on_LeftChild (oderef s node) with
  | None => match on_Hash (oderef s node) with Some i => Some (Ok (oset_add (mw_world s) hs i)) | None => None end
  | Some l =>
      match fuel with
      | O => None
      | S f =>
          match odfs f s l hs with
          | Some (Ok hs1) =>
              match on_RightChild (oderef s node) with
              | Some r => odfs f s r hs1
              | None => Some (Raise AttributeError)
              end
          | x => x
          end
      end
  end.
(** MerkleTree.py:142-151 ToHashArray: the objects in the list it returns *)
Definition oToHashArray (t : mtree) (s : mworld) : option (res (list nat)) := odfs (length (mw_nodes s)) s (t_Root t) [].
(** what the program does with its UInts and bytearrays afterwards *)
Definition later (ops : list uop) (s : mworld) : mworld := mkMW (run_uops ops (mw_world s)) (mw_nodes s).
