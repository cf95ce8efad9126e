(** * M_UIntHeap: UInt objects that share caller-visible bytearrays

    M_UInt treats Data as a value.  Here the bytearrays are heap cells, because
    UIntBase.py:22-23 stores the caller's bytearray without copying and
    UIntBase.py:45-46 ToArray hands out the internal one. *)
From Verif Require Import M_Py M_UInt M_Writer M_Reader.

(** What the attribute Data refers to: a bytearray cell, or an immutable bytes
    object (after Deserialize, UIntBase.py:41-43, Data is what stream.read returned). *)
Inductive udata := DCell (loc : nat) | DImm (b : bytes).
Record uobj := mkObj { o_cls : ucls; o_data : udata; o_hash : Z }.
Record world := mkWorld { cells : list bytes; objs : list uobj }.
Definition empty_world : world := mkWorld [] [].

Definition cell (w : world) (loc : nat) : bytes := nth loc (cells w) [].
(** The current bytes of an object. *)
Definition data_of (w : world) (o : uobj) : bytes :=
  match o_data o with DCell l => cell w l | DImm b => b end.
(** The object seen as a value (M_UInt). *)
Definition view (w : world) (o : uobj) : uint := mkUInt (o_cls o) (data_of w o) (o_hash o).

Fixpoint update {A} (l : list A) (i : nat) (x : A) : list A :=
  match l, i with
  | [], _ => []
  | _ :: r, O => x :: r
  | y :: r, S k => y :: update r k x
  end.

(** Argument of a constructor. *)
Inductive uarg := ANone | ABytes (b : bytes) | ACell (loc : nat).

(** One step of a program using UInts. *)
Inductive uop :=
| NewBytearray (b : bytes)                       (* caller: x = bytearray(b) *)
| Mutate (loc : nat) (b : bytes)                 (* caller: changes the bytearray's content to b *)
| Construct (cls : ucls) (n : nat) (a : uarg)    (* UIntBase(n, a) / UInt160(a) / UInt256(a) *)
| DeserializeAt (i : nat) (s : stream).          (* objs[i].Deserialize(reader over s) *)

Definition alloc (w : world) (b : bytes) : nat * world :=
  (length (cells w), mkWorld (cells w ++ [b]) (objs w)).
Definition add_obj (w : world) (o : uobj) : world := mkWorld (cells w) (objs w ++ [o]).

(** Exceptions leave the world as it was (UIntBase.py:16-17, 24-25 raise before
    any attribute of a reachable object is set). *)
Definition ustep (w : world) (op : uop) : world :=
  match op with
  | NewBytearray b => snd (alloc w b)
  | Mutate loc b => mkWorld (update (cells w) loc b) (objs w)
  | Construct cls n a =>
      match a with
      | ANone =>                                   (* UIntBase.py:13-14 *)
          let '(l, w') := alloc w (repeat x00 n) in
          add_obj w' (mkObj cls (DCell l) (GetHashCode (repeat x00 n)))
      | ABytes b =>                                (* UIntBase.py:20-21: copied *)
          if negb (zlen b =? Z.of_nat n) then w
          else let '(l, w') := alloc w b in add_obj w' (mkObj cls (DCell l) (GetHashCode b))
      | ACell loc =>                               (* UIntBase.py:22-23: shared *)
          if (loc <? length (cells w))%nat then
            if negb (zlen (cell w loc) =? Z.of_nat n) then w
            else add_obj w (mkObj cls (DCell loc) (GetHashCode (cell w loc)))
          else w
      end
  | DeserializeAt i s =>
      match nth_error (objs w) i with
      | Some o =>
          match uint_Deserialize (view w o) s with
          | (Ok u, _) => mkWorld (cells w) (update (objs w) i (mkObj (o_cls o) (DImm (u_data u)) (u_hash u)))
          | (Raise _, _) => w
          end
      | None => w
      end
  end.

Definition run_uops (l : list uop) (w : world) : world := fold_left ustep l w.
