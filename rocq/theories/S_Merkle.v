(** * S_Merkle: vocabulary for C55-C59 *)
From Verif Require Import M_Py M_Hash M_UInt M_Merkle.

(** [u] is the UInt256 holding the double SHA-256 of the bytes of [a] followed by those of [b]. *)
Definition digest (H : hashes) (a b u : uint) : Prop :=
  new_UInt256 (VBytes (sha256 H (sha256 H (u_data a ++ u_data b)))) = Ok u.
(** consecutive pairs; a last element without partner is paired with itself *)
Inductive pair_up (H : hashes) : list uint -> list uint -> Prop :=
| pu_nil : pair_up H [] []
| pu_odd a u : digest H a a u -> pair_up H [a] [u]
| pu_pair a b l u l' : digest H a b u -> pair_up H l l' -> pair_up H (a :: b :: l) (u :: l').
Inductive merkle_root (H : hashes) : list uint -> uint -> Prop :=
| mr_one u : merkle_root H [u] u
| mr_up l l' r : (2 <= length l)%nat -> pair_up H l l' -> merkle_root H l' r -> merkle_root H l r.

(** The row [up] of nodes stands above the row [low]: node number i of [up] has as left child
    node number 2i of [low] and as right child node number 2i+1, or again 2i if there is none;
    the parent of both is that node, and its hash is the digest of theirs. *)
Definition above (H : hashes) (h : heap) (low up : list addr) : Prop :=
  length up = Nat.div2 (S (length low)) /\
  forall i a, nth_error up i = Some a -> exists l r hl hr u,
    nth_error low (2 * i) = Some l /\
    (nth_error low (2 * i + 1) = Some r \/ nth_error low (2 * i + 1) = None /\ r = l) /\
    n_LeftChild (deref h a) = Some l /\ n_RightChild (deref h a) = Some r /\
    n_Parent (deref h l) = Some a /\ n_Parent (deref h r) = Some a /\
    n_Hash (deref h l) = Some hl /\ n_Hash (deref h r) = Some hr /\ n_Hash (deref h a) = Some u /\ digest H hl hr u.
(** Rows above the row [low], the last of which is the root alone. *)
Inductive rows_above (H : hashes) (h : heap) : list addr -> list (list addr) -> addr -> Prop :=
| ra_root a : n_Parent (deref h a) = None -> rows_above H h [a] [] a
| ra_row low up rest root : (2 <= length low)%nat -> above H h low up -> rows_above H h up rest root ->
    rows_above H h low (up :: rest) root.
(** A complete tree over the hashes [hs]: the row of leaves carries them in order, and no node
    occurs twice in the rows. *)
Definition tree_of (H : hashes) (h : heap) (hs : list uint) (leaves : list addr) (rows : list (list addr)) (root : addr) : Prop :=
  Forall2 (fun a u => n_Hash (deref h a) = Some u /\ n_LeftChild (deref h a) = None /\ n_RightChild (deref h a) = None) leaves hs /\
  rows_above H h leaves rows root /\ NoDup (leaves ++ concat rows) /\ Forall (fun a => (a < length h)%nat) (leaves ++ concat rows).

(** A node without its children; a heap in which exactly the nodes [cleared] have lost theirs. *)
Definition clear (n : node) : node := mkNode (n_Hash n) (n_Parent n) None None.
Definition without_children (h h' : heap) (cleared : list addr) : Prop :=
  length h' = length h /\ forall x, (In x cleared -> deref h' x = clear (deref h x)) /\ (~ In x cleared -> deref h' x = deref h x).
(** Two different strings of 64 bytes with the same double SHA-256. *)
Definition collision (H : hashes) : Prop := exists x y, length x = 64%nat /\ length y = 64%nat /\ x <> y /\ sha256 H (sha256 H x) = sha256 H (sha256 H y).
