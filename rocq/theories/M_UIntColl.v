(** * M_UIntColl: UInts in sorted(), min(), max(), and as keys of dicts and members of sets

    UIntBase defines __lt__ ... __ge__ (UIntBase.py:103-113), __eq__ and __hash__
    (UIntBase.py:62-78), so Python's sorted(), min(), max(), dict and set accept UInts.  These are
    Python's; they are modelled here as far as their outcome depends on the operators. *)
From Verif Require Import M_Py M_UInt M_UIntHeap.

(** ** sorted(l), l.sort() *)
(** Any deterministic sorting algorithm that looks at the items by < only: it asks whether item i is
    less than item j, goes on depending on the answer, and in the end gives the positions of the
    items in their new order. *)
Inductive sorter := Ask (i j : nat) (k : bool -> sorter) | Give (p : list nat).
Fixpoint run_sorter {A} (lt : A -> A -> res bool) (l : list A) (t : sorter) : res (list nat) :=
  match t with
  | Give p => Ok p
  | Ask i j k =>
      match nth_error l i, nth_error l j with
      | Some x, Some y => do b <- lt x y; run_sorter lt l (k b)
      | _, _ => Raise IndexError
      end
  end.
(** the items at the given positions *)
Definition pick {A} (l : list A) (p : list nat) : list A :=
  flat_map (fun i => match nth_error l i with Some x => [x] | None => [] end) p.
(** [sorts]: Python's algorithm, one for every length.  An exception of < reaches the caller. *)
Definition py_sorted (sorts : nat -> sorter) (l : list uint) : res (list uint) :=
  do p <- run_sorter (fun a b => uint_lt a (Some b)) l (sorts (length l)); Ok (pick l p).

(** ** min(l), max(l): the first item, replaced by a later one that is less (greater) *)
Fixpoint best (better : uint -> uint -> res bool) (cur : uint) (l : list uint) : res uint :=
  match l with
  | [] => Ok cur
  | x :: r => do b <- better x cur; best better (if b then x else cur) r
  end.
Definition py_min (l : list uint) : res uint :=
  match l with [] => Raise ValueError | x :: r => best (fun a b => uint_lt a (Some b)) x r end.
Definition py_max (l : list uint) : res uint :=
  match l with [] => Raise ValueError | x :: r => best (fun a b => uint_gt a (Some b)) x r end.

(** ** a dict with UInt keys (a set is the same without values) *)
(** An entry keeps the hash the key had when it was put in (dictobject.c), the key object and a value. *)
Record entry := mkEntry { e_hash : Z; e_key : nat; e_val : Z }.
(** The program's UInts and bytearrays, and one dict; keys are positions in [objs]. *)
Record dworld := mkDW { dw_world : world; dw_dict : list entry }.
Definition empty_dworld : dworld := mkDW empty_world [].

(** A key is looked up by its current hash.  An entry with that stored hash is found if its key is
    the same object or equal to it. *)
Definition hits (w : world) (k : nat) (e : entry) : Prop :=
  exists o o', nth_error (objs w) k = Some o /\ nth_error (objs w) (e_key e) = Some o' /\
    e_hash e = uint_hash (view w o) /\ (e_key e = k \/ uint_eq (view w o') (Some (view w o)) = true).
(** The entry of the very object may be found also if the hash it is stored with differs: whether
    depends on the place of the entry in the hash table, which is not modelled. *)
Definition may_hit (w : world) (k : nat) (e : entry) : Prop := hits w k e \/ (e_key e = k /\ (k < length (objs w))%nat).
(** The possible outcomes of a lookup: the position of an entry, or none (KeyError).  If several
    entries are hit, it is one of them. *)
Inductive lookup (d : dworld) (k : nat) : option nat -> Prop :=
| look_found i e : nth_error (dw_dict d) i = Some e -> may_hit (dw_world d) k e -> lookup d k (Some i)
| look_none : (k < length (objs (dw_world d)))%nat -> (forall e, In e (dw_dict d) -> ~ hits (dw_world d) k e) -> lookup d k None.
(** d[k]: Some value, or None for a KeyError; also what `k in d` tells *)
Definition dget (d : dworld) (k : nat) (r : option Z) : Prop :=
  exists o, lookup d k o /\ r = match o with Some i => option_map e_val (nth_error (dw_dict d) i) | None => None end.

Inductive dop :=
| DUInt (op : uop)               (* the program makes or changes UInts and bytearrays *)
| DSet (k : nat) (v : Z)         (* d[objs[k]] = v, or s.add(objs[k]) *)
| DDel (k : nat).                (* d.pop(objs[k], None), or s.discard(objs[k]) *)
Fixpoint remove_at {A} (i : nat) (l : list A) : list A :=
  match l, i with
  | [], _ => []
  | _ :: r, O => r
  | x :: r, S j => x :: remove_at j r
  end.
(** d[k] = v keeps the key object that is there already *)
Inductive dstep (d : dworld) : dop -> dworld -> Prop :=
| step_uint op : dstep d (DUInt op) (mkDW (ustep (dw_world d) op) (dw_dict d))
| step_replace k v i e : lookup d k (Some i) -> nth_error (dw_dict d) i = Some e ->
    dstep d (DSet k v) (mkDW (dw_world d) (M_UIntHeap.update (dw_dict d) i (mkEntry (e_hash e) (e_key e) v)))
| step_add k v o : lookup d k None -> nth_error (objs (dw_world d)) k = Some o ->
    dstep d (DSet k v) (mkDW (dw_world d) (dw_dict d ++ [mkEntry (uint_hash (view (dw_world d) o)) k v]))
| step_del k i : lookup d k (Some i) -> dstep d (DDel k) (mkDW (dw_world d) (remove_at i (dw_dict d)))
| step_del_none k : lookup d k None -> dstep d (DDel k) d.
Inductive druns : dworld -> list dop -> dworld -> Prop :=
| run_nil d : druns d [] d
| run_cons d op d' l d'' : dstep d op d' -> druns d' l d'' -> druns d (op :: l) d''.
