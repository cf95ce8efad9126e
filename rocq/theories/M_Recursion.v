(** * M_Recursion: the recursive functions of neocore under Python's recursion limit

    CPython raises RecursionError when a Python function is called with no frame left.  Here a
    function is given the number of frames that are left when it is called
    (sys.getrecursionlimit() minus the depth of the caller); it takes one itself.  Calls of
    functions written in C (len, isinstance, int arithmetic, hashlib, super().__init__ of object)
    take none.  Calls that return before the next one are represented by the largest number of
    frames they take ([need]).  What a tree under construction looks like after a RecursionError
    is not modelled: nothing refers to it any more.  List comprehensions are counted as one
    frame (CPython before 3.12).

    The recursive functions of the package are GCD and the three helpers of MerkleTree; the
    other modules contain no recursion. *)
From Verif Require Import M_Py M_Hash M_UInt M_Helper M_ECCurve M_Merkle.

Inductive limited (A : Type) : Type := Fits (a : A) | RecursionError.
Arguments Fits {A} a.
Arguments RecursionError {A}.
Definition lbind {A B} (m : limited A) (f : A -> limited B) : limited B :=
  match m with Fits a => f a | RecursionError => RecursionError end.
(** a call: the body runs with one frame less *)
Definition enter {A} (frames : nat) (body : nat -> limited A) : limited A :=
  match frames with O => RecursionError | S f => body f end.
(** calls that take [n] frames and return *)
Definition need {A} (n frames : nat) (rest : limited A) : limited A :=
  if Nat.leb n frames then rest else RecursionError.

(** ** ECCurve.py *)

(** ECCurve.py:19-23 GCD *)
Fixpoint GCD_frames (frames : nat) (a b : Z) : limited (Z * Z * Z) :=
  match frames with
  | O => RecursionError
  | S f =>
      if a =? 0 then Fits (b, 0, 1)
      else lbind (GCD_frames f (b mod a) a) (fun '(d1, x1, y1) => Fits (d1, y1 - (b / a) * x1, x1))
  end.
(** ECCurve.py:26-28 modinv *)
Definition modinv_frames (frames : nat) (x m : Z) : limited Z :=
  enter frames (fun f => lbind (GCD_frames f x m) (fun '(_, c, _) => Fits c)).
(** ECCurve.py:213-214, 253-254, 275-276, 310-314: v1 / v2 for two Values of one field of modulus
    [p].  __truediv__ calls FiniteField.value (one frame: v2 is returned as it is), then div;
    div calls samefield (one frame), Value.inverse, FiniteField.inverse and modinv, and then
    FiniteField.value, Value.__init__ and integer (three frames). *)
Definition fdiv_frames (frames : nat) (p a b : Z) : limited Z :=
  enter frames (fun f1 => need 1 f1 (
  enter f1 (fun f2 => need 1 f2 (
  lbind (enter f2 (fun f3 => enter f3 (fun f4 => modinv_frames f4 b p))) (fun c =>
  need 3 f2 (Fits ((a * c) mod p))))))).

(** ** MerkleTree.py *)

(** MerkleTree.py:70-101 __Build.  Inside a call with two or more leaves: the list comprehension
    and MerkleTreeNode.__init__ (2 frames), ToArray (1), Crypto.Hash256 and bin_dbl_sha256 (2),
    UInt256.__init__, UIntBase.__init__ and GetHashCode (3). *)
Fixpoint build_frames (frames : nat) (H : hashes) (leaves : list addr) : heap -> limited (res addr * heap) := fun h =>
  match frames with
  | O => RecursionError
  | S f =>
      match leaves with
      | [] => Fits (Raise PlainException, h)
      | [x] => Fits (Ok x, h)
      | _ =>
          match int_div (zlen leaves + 1) 2 with
          | Raise e => Fits (Raise e, h)
          | Ok num_parents =>
              need 3 f (
              match (parents <== halloc (repeat (new_node None) (Z.to_nat num_parents)) ;
                     hfor (seq 0 (Z.to_nat num_parents)) (build_step H leaves parents) ;;;
                     hret parents) h with
              | (Ok parents, h') => build_frames f H parents h'
              | (Raise e, h') => Fits (Raise e, h')
              end)
          end
      end
  end.
(** MerkleTree.py:55-67 __init__; the list comprehension and MerkleTreeNode.__init__ take two
    frames.  The loop that finds the depth calls nothing. *)
Definition new_MerkleTree_frames (frames : nat) (H : hashes) (hs : list uint) (h : heap) : limited (res mtree * heap) :=
  enter frames (fun f => need (if hs then 1 else 2) f (
  let leaves := seq (length h) (length hs) in
  let h := h ++ map (fun u => new_node (Some u)) hs in
  lbind (build_frames f H leaves h) (fun '(r, h') =>
    match r with
    | Raise e => Fits (Raise e, h')
    | Ok root => match left_depth (length h') h' root 1 with
                 | None => Fits (Raise AttributeError, h')   (* does not occur *)
                 | Some depth => Fits (Ok (mkTree root depth), h')
                 end
    end))).
(** MerkleTree.py:109-125 ComputeRoot *)
Definition ComputeRoot_frames (frames : nat) (H : hashes) (hs : list uint) : limited (res uint) :=
  enter frames (fun f =>
  match hs with
  | [] => Fits (Raise PlainException)
  | [x] => Fits (Ok x)
  | _ => lbind (new_MerkleTree_frames f H hs []) (fun '(r, h) =>
      match r with
      | Raise e => Fits (Raise e)
      | Ok t => Fits (match n_Hash (deref h (t_Root t)) with Some u => Ok u | None => Raise AttributeError end)
      end)
  end).
(** MerkleTree.py:127-140 __DepthFirstSearch; set.add calls UIntBase.__hash__ and, for an equal
    hash, __eq__ (1 frame).  A leaf without hash does not occur in a constructed tree. *)
Fixpoint dfs_frames (frames : nat) (h : heap) (node : addr) (hs : list uint) : limited (res (list uint)) :=
  match frames with
  | O => RecursionError
  | S f =>
      match n_LeftChild (deref h node) with
      | None => match n_Hash (deref h node) with
                | Some u => need 1 f (Fits (Ok (set_add hs u)))
                | None => Fits (Raise AttributeError)   (* does not occur *)
                end
      | Some l => lbind (dfs_frames f h l hs) (fun r =>
          match r with
          | Raise e => Fits (Raise e)
          | Ok hs1 => match n_RightChild (deref h node) with
                      | Some r => dfs_frames f h r hs1
                      | None => Fits (Raise AttributeError)
                      end
          end)
      end
  end.
(** MerkleTree.py:142-151 ToHashArray *)
Definition ToHashArray_frames (frames : nat) (t : mtree) (h : heap) : limited (res (list uint)) :=
  enter frames (fun f => dfs_frames f h (t_Root t) []).
(** MerkleTree.py:168-195 _TrimNode, for depth >= 1 *)
Fixpoint trim_frames (frames : nat) (depth : nat) (node : addr) (index : Z) (flags : bytes) (h : heap) : limited (res unit * heap) :=
  match frames with
  | O => RecursionError
  | S f =>
      match Nat.leb depth 1, n_LeftChild (deref h node) with
      | true, _ | false, None => Fits (Ok tt, h)
      | false, Some l =>
          if Nat.eqb depth 2 then
            match (do a <- flag_at flags (index * 2);
                   if negb (b2z a =? 0) then Ok false
                   else do b <- flag_at flags (index * 2 + 1); Ok (b2z b =? 0)) with
            | Raise e => Fits (Raise e, h)
            | Ok true => Fits (Ok tt, update node (set_RightChild None) (update node (set_LeftChild None) h))
            | Ok false => Fits (Ok tt, h)
            end
          else
            lbind (trim_frames f (depth - 1) l (index * 2) flags h) (fun '(r1, h1) =>
            match r1 with
            | Raise e => Fits (Raise e, h1)
            | Ok _ =>
                match n_RightChild (deref h1 node) with
                | None => Fits (Raise AttributeError, h1)
                | Some r =>
                    lbind (trim_frames f (depth - 1) r (index * 2) flags h1) (fun '(r2, h2) =>
                    match r2 with
                    | Raise e => Fits (Raise e, h2)
                    | Ok _ =>
                        match n_LeftChild (deref h2 node) with
                        | None => Fits (Raise AttributeError, h2)
                        | Some l2 =>
                            match n_LeftChild (deref h2 l2), n_RightChild (deref h2 node) with
                            | Some _, _ => Fits (Ok tt, h2)
                            | None, None => Fits (Raise AttributeError, h2)
                            | None, Some r2 =>
                                match n_RightChild (deref h2 r2) with
                                | None => Fits (Ok tt, update node (set_RightChild None) (update node (set_LeftChild None) h2))
                                | Some _ => Fits (Ok tt, h2)
                                end
                            end
                        end
                    end)
                end
            end)
      end
  end.
(** MerkleTree.py:153-166 Trim; [logging] is the number of frames that logger.info takes *)
Definition Trim_frames (logging frames : nat) (t : mtree) (flags : bytes) (h : heap) : limited (res unit * heap) :=
  enter frames (fun f => need logging f (
  let length := Z.shiftl 1 (t_Depth t - 1) in
  let flags := flags ++ repeat x00 (Z.to_nat (length - zlen flags)) in
  trim_frames f (Z.to_nat (t_Depth t)) (t_Root t) 0 flags h)).
