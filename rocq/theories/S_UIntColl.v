(** * S_UIntColl: vocabulary for C116 and C117 *)
From Coq Require Import Permutation.
From Verif Require Import M_Py M_UInt M_UIntHeap M_UIntColl S_IO S_IO2 S_UInt.

(** ** C116 *)
(** [p] lists the positions of [keys] in stable ascending order: by key, equal keys by position. *)
Definition stable_order (keys : list Z) (p : list nat) : Prop :=
  Permutation p (seq 0 (length keys)) /\
  forall a b, (a < b < length p)%nat ->
    let x := nth a p O in let y := nth b p O in
    nth x keys 0 < nth y keys 0 \/ (nth x keys 0 = nth y keys 0 /\ (x < y)%nat).
(** What Python's documentation says of sorted(): every list of ints is sorted, stably. *)
Definition sorts_ints_stably (sorts : nat -> sorter) : Prop :=
  forall l : list Z, exists p, run_sorter (fun a b => Ok (a <? b)) l (sorts (length l)) = Ok p /\ stable_order l p.
(** The value without its lowest byte. *)
Definition rank (u : uint) : Z := value_of u / 256.
Definition one_size (l : list uint) : Prop := forall a b, In a l -> In b l -> length (u_data a) = length (u_data b).
(** Two items of the same rank are the same. *)
Definition no_ties (l : list uint) : Prop := forall a b, In a l -> In b l -> rank a = rank b -> a = b.

(** ** C117 *)
(** What a map from byte strings would hold after the history. *)
Definition amap := bytes -> option Z.
Definition no_entry : amap := fun _ => None.
Definition set_entry (m : amap) (b : bytes) (r : option Z) : amap := fun c => if list_eq_dec Byte.byte_eq_dec c b then r else m c.
(** The bytes of object k. *)
Definition bytes_of (w : world) (k : nat) : option bytes := option_map (data_of w) (nth_error (objs w) k).
Definition apply_dop (d : dworld) (op : dop) (m : amap) : amap :=
  match op with
  | DUInt _ => m
  | DSet k v => match bytes_of (dw_world d) k with Some b => set_entry m b (Some v) | None => m end
  | DDel k => match bytes_of (dw_world d) k with Some b => set_entry m b None | None => m end
  end.
(** A step that changes neither the bytearray of a UInt nor, by Deserialize, a UInt that is a key of
    the dict. *)
Definition keys_alone (d : dworld) (op : dop) : Prop :=
  match op with
  | DUInt u => leaves_uints_alone (dw_world d) u /\
      match u with DeserializeAt i _ => forall e, In e (dw_dict d) -> e_key e <> i | _ => True end
  | _ => True
  end.
(** Histories of such steps, with what a map from byte strings holds at the end. *)
Inductive clean_run : dworld -> amap -> list dop -> dworld -> amap -> Prop :=
| clean_nil d m : clean_run d m [] d m
| clean_cons d m op d' l d'' m'' : dstep d op d' -> keys_alone d op -> clean_run d' (apply_dop d op m) l d'' m'' ->
    clean_run d m (op :: l) d'' m''.
