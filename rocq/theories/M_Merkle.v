(** * M_Merkle: neocore/Cryptography/MerkleTree.py

    Nodes are mutable and shared (the last node of an odd row is both children of its
    parent), so they live on a heap: a node is its index.  Hashes are UInt objects; ToArray
    and the digest do not change them, so they are values here (sharing of their byte data is
    M_UIntHeap's subject).  Size() (sys.getsizeof) and logging are not modelled. *)
From Verif Require Import M_Py M_Hash M_UInt M_Helper M_ECCurve.

Definition addr := nat.
(** MerkleTree.py:6-19: the attributes of MerkleTreeNode *)
Record node := mkNode { n_Hash : option uint; n_Parent : option addr; n_LeftChild : option addr; n_RightChild : option addr }.
Definition heap := list node.
(** MerkleTree.py:12-19 MerkleTreeNode(hash) *)
Definition new_node (hash : option uint) : node := mkNode hash None None None.

Fixpoint update {A} (n : nat) (f : A -> A) (l : list A) : list A :=
  match l, n with
  | [], _ => []
  | x :: r, O => f x :: r
  | x :: r, S n' => x :: update n' f r
  end.
Definition set_Hash (v : option uint) (n : node) : node := mkNode v (n_Parent n) (n_LeftChild n) (n_RightChild n).
Definition set_Parent (v : option addr) (n : node) : node := mkNode (n_Hash n) v (n_LeftChild n) (n_RightChild n).
Definition set_LeftChild (v : option addr) (n : node) : node := mkNode (n_Hash n) (n_Parent n) v (n_RightChild n).
Definition set_RightChild (v : option addr) (n : node) : node := mkNode (n_Hash n) (n_Parent n) (n_LeftChild n) v.
(** attribute access on a node object; an index outside the heap does not occur *)
Definition deref (h : heap) (a : addr) : node := nth a h (new_node None).

(** MerkleTree.py:21-30 IsLeaf (node objects are truthy) *)
Definition IsLeaf (h : heap) (a : addr) : bool :=
  match n_LeftChild (deref h a), n_RightChild (deref h a) with None, None => true | _, _ => false end.
(** MerkleTree.py:32-39 IsRoot *)
Definition IsRoot (h : heap) (a : addr) : bool := match n_Parent (deref h a) with None => true | _ => false end.

(** heap transformers with exceptions *)
Definition hm (A : Type) : Type := heap -> res A * heap.
Definition hret {A} (a : A) : hm A := fun h => (Ok a, h).
Definition hlift {A} (r : res A) : hm A := fun h => (r, h).
Definition hraise {A} (e : exn) : hm A := fun h => (Raise e, h).
Definition hbind {A B} (m : hm A) (f : A -> hm B) : hm B := fun h =>
  match m h with (Ok a, h') => f a h' | (Raise e, h') => (Raise e, h') end.
Definition hget {A} (f : heap -> A) : hm A := fun h => (Ok (f h), h).
Definition hset (a : addr) (f : node -> node) : hm unit := fun h => (Ok tt, update a f h).
Definition halloc (l : list node) : hm (list addr) := fun h => (Ok (seq (length h) (length l)), h ++ l).
Notation "x <== m ; f" := (hbind m (fun x => f)) (at level 100, m at next level, f at level 200, right associativity).
Notation "m ;;; f" := (hbind m (fun _ => f)) (at level 100, f at level 200, right associativity).
Fixpoint hfor {A} (l : list A) (body : A -> hm unit) : hm unit :=
  match l with [] => hret tt | x :: r => body x ;;; hfor r body end.

(** node.Hash.ToArray() *)
Definition hash_array (n : node) : res bytes :=
  match n_Hash n with Some u => Ok (ToArray u) | None => Raise AttributeError end.

(** MerkleTree.py:87-99: the body of the loop, for parent number i *)
Definition build_step (H : hashes) (leaves parents : list addr) (i : nat) : hm unit :=
  let node := nth i parents 0%nat in
  let left := nth (i * 2) leaves 0%nat in
  hset node (set_LeftChild (Some left)) ;;;
  hset left (set_Parent (Some node)) ;;;
  (if Nat.eqb (i * 2 + 1) (length leaves) then
     l <== hget (fun h => n_LeftChild (deref h node)) ;
     hset node (set_RightChild l)
   else
     let right := nth (i * 2 + 1) leaves 0%nat in
     hset node (set_RightChild (Some right)) ;;;
     hset right (set_Parent (Some node))) ;;;
  l <== hget (fun h => match n_LeftChild (deref h node) with Some a => hash_array (deref h a) | None => Raise AttributeError end) ;
  r <== hget (fun h => match n_RightChild (deref h node) with Some a => hash_array (deref h a) | None => Raise AttributeError end) ;
  hasharray <== hlift (do l <- l; do r <- r; Ok (l ++ r)) ;
  u <== hlift (new_UInt256 (VBytes (bin_dbl_sha256 H hasharray))) ;
  hset node (set_Hash (Some u)).

(** MerkleTree.py:70-101 __Build.  The recursion is on a strictly shorter list; [fuel] bounds
    its depth and [None] means the bound was too small (never, see L_Merkle). *)
Fixpoint build (fuel : nat) (H : hashes) (leaves : list addr) : heap -> option (res addr * heap) := fun h =>
  match leaves with
  | [] => Some (Raise PlainException, h)
  | [x] => Some (Ok x, h)
  | _ =>
      match fuel with
      | O => None
      | S fuel' =>
          match int_div (zlen leaves + 1) 2 with       (* int((len(leaves) + 1) / 2) *)
          | Raise e => Some (Raise e, h)
          | Ok num_parents =>
              match (parents <== halloc (repeat (new_node None) (Z.to_nat num_parents)) ;
                     hfor (seq 0 (Z.to_nat num_parents)) (build_step H leaves parents) ;;;
                     hret parents) h with
              | (Ok parents, h') => build fuel' H parents h'
              | (Raise e, h') => Some (Raise e, h')
              end
          end
      end
  end.

(** MerkleTree.py:50-53: the attributes Root and Depth *)
Record mtree := mkTree { t_Root : addr; t_Depth : Z }.
(** MerkleTree.py:63-66: the depth loop, bounded by the number of nodes *)
Fixpoint left_depth (fuel : nat) (h : heap) (i : addr) (depth : Z) : option Z :=
  match n_LeftChild (deref h i) with
  | None => Some depth
  | Some j => match fuel with O => None | S f => left_depth f h j (depth + 1) end
  end.
(** MerkleTree.py:55-67 __init__ *)
Definition new_MerkleTree (H : hashes) (hs : list uint) (h : heap) : option (res mtree * heap) :=
  let leaves := seq (length h) (length hs) in
  let h := h ++ map (fun u => new_node (Some u)) hs in
  match build (length hs) H leaves h with
  | None => None
  | Some (Raise e, h') => Some (Raise e, h')
  | Some (Ok root, h') =>
      match left_depth (length h') h' root 1 with
      | None => None
      | Some depth => Some (Ok (mkTree root depth), h')
      end
  end.

(** MerkleTree.py:109-125 ComputeRoot; the nodes it makes are not reachable afterwards *)
Definition ComputeRoot (H : hashes) (hs : list uint) : option (res uint) :=
  match hs with
  | [] => Some (Raise PlainException)
  | [x] => Some (Ok x)
  | _ =>
      match new_MerkleTree H hs [] with
      | None => None
      | Some (Raise e, _) => Some (Raise e)
      | Some (Ok t, h) => Some (match n_Hash (deref h (t_Root t)) with Some u => Ok u | None => Raise AttributeError end)
      end
  end.

(** set.add with the set as the list of its elements in order of insertion: an element is
    already there if one with the same hash() compares equal *)
Definition set_add (s : list uint) (u : uint) : list uint :=
  if existsb (fun v => (uint_hash v =? uint_hash u) && uint_eq v (Some u)) s then s else s ++ [u].
(** MerkleTree.py:127-140 __DepthFirstSearch.  A leaf without hash (which Python would put
    into the set as None) does not occur in a constructed tree and is cut off. *)
Fixpoint dfs (fuel : nat) (h : heap) (node : addr) (hs : list uint) : option (res (list uint)) :=
  match n_LeftChild (deref h node) with
  | None => match n_Hash (deref h node) with Some u => Some (Ok (set_add hs u)) | None => None end
  | Some l =>
      match fuel with
      | O => None
      | S f =>
          match dfs f h l hs with
          | Some (Ok hs1) =>
              match n_RightChild (deref h node) with
              | Some r => dfs f h r hs1
              | None => Some (Raise AttributeError)
              end
          | x => x
          end
      end
  end.
(** MerkleTree.py:142-151 ToHashArray; the order of list(set) is unspecified in Python, only
    the elements are meaningful *)
Definition ToHashArray (t : mtree) (h : heap) : option (res (list uint)) := dfs (length h) h (t_Root t) [].

(** MerkleTree.py:168-195 _TrimNode; [depth - 1] is structurally smaller, so fuel = depth.
    For depth <= 0 the recursion goes on until a node without a left child is met: such calls
    are cut off as [None]. *)
Definition flag_at (flags : bytes) (i : Z) : res byte :=
  let i' := if i <? 0 then i + zlen flags else i in
  if (0 <=? i') && (i' <? zlen flags) then Ok (nth (Z.to_nat i') flags x00) else Raise IndexError.
Fixpoint trim_node (depth : nat) (node : addr) (index : Z) (flags : bytes) (h : heap) : option (res unit * heap) :=
  match depth with
  | O => None
  | S depth' =>
      match Nat.eqb depth 1, n_LeftChild (deref h node) with
      | true, _ | false, None => Some (Ok tt, h)
      | false, Some l =>
          if Nat.eqb depth 2 then
            match (do a <- flag_at flags (index * 2);
                   if negb (b2z a =? 0) then Ok false
                   else do b <- flag_at flags (index * 2 + 1); Ok (b2z b =? 0)) with
            | Raise e => Some (Raise e, h)
            | Ok true => Some (Ok tt, update node (set_RightChild None) (update node (set_LeftChild None) h))
            | Ok false => Some (Ok tt, h)
            end
          else
            match trim_node depth' l (index * 2) flags h with
            | Some (Ok _, h1) =>
                match n_RightChild (deref h1 node) with
                | None => Some (Raise AttributeError, h1)
                | Some r =>
                    match trim_node depth' r (index * 2) flags h1 with
                    | Some (Ok _, h2) =>
                        match n_LeftChild (deref h2 node) with
                        | None => Some (Raise AttributeError, h2)
                        | Some l2 =>
                            match n_LeftChild (deref h2 l2), n_RightChild (deref h2 node) with
                            | Some _, _ => Some (Ok tt, h2)
                            | None, None => Some (Raise AttributeError, h2)
                            | None, Some r2 =>
                                match n_RightChild (deref h2 r2) with
                                | None => Some (Ok tt, update node (set_RightChild None) (update node (set_LeftChild None) h2))
                                | Some _ => Some (Ok tt, h2)
                                end
                            end
                        end
                    | x => x
                    end
                end
            | x => x
            end
      end
  end.
(** MerkleTree.py:153-166 Trim; `1 << self.Depth - 1` is `1 << (Depth - 1)` *)
Definition Trim (t : mtree) (flags : bytes) (h : heap) : option (res unit * heap) :=
  let length := Z.shiftl 1 (t_Depth t - 1) in
  let flags := flags ++ repeat x00 (Z.to_nat (length - zlen flags)) in
  trim_node (Z.to_nat (t_Depth t)) (t_Root t) 0 flags h.
