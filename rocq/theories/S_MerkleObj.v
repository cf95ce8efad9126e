(** * S_MerkleObj: vocabulary for C115 *)
From Verif Require Import M_Py M_Hash M_UInt M_UIntHeap M_Merkle M_MerkleObj S_IO S_IO2 S_Merkle.

(** Every UInt object refers to a bytearray that exists, and every node to a UInt object that exists. *)
Definition objects_ok (w : world) : Prop :=
  Forall (fun o => match o_data o with DCell l => (l < length (cells w))%nat | DImm _ => True end) (objs w).
Definition nodes_ok (s : mworld) : Prop :=
  Forall (fun n => match on_Hash n with Some i => (i < length (objs (mw_world s)))%nat | None => True end) (mw_nodes s).
(** The UInts a program has are those it made in some history. *)
Definition all_exist (w : world) (ids : list nat) : Prop := Forall (fun i => (i < length (objs w))%nat) ids.

(** A node as its value-level counterpart at the moment: its Hash is what the object looks like now. *)
Definition node_now (w : world) (n : onode) : node := mkNode (option_map (seen w) (on_Hash n)) (on_Parent n) (on_LeftChild n) (on_RightChild n).
Definition heap_now (s : mworld) : heap := map (node_now (mw_world s)) (mw_nodes s).

(** Between the worlds [w0] and [w1] some bytearrays and UInt objects were made; the step changes none of them. *)
Definition spares (w0 w1 : world) (op : uop) : Prop :=
  match op with
  | Mutate loc _ => (loc < length (cells w0) \/ length (cells w1) <= loc)%nat
  | DeserializeAt i _ => (i < length (objs w0) \/ length (objs w1) <= i)%nat
  | _ => True
  end.
(** Same bytes and same cached hash: indistinguishable for a set. *)
Definition same_key (w : world) (i j : nat) : Prop := u_data (seen w i) = u_data (seen w j) /\ uint_hash (seen w i) = uint_hash (seen w j).
