(** * M_Fixed8Heap: programs over Fixed8 objects and variables

    Fixed8.py defines the in-place operators (75-76, 81-82, 87-88, 96-97, 102-103)
    by returning a new object, which Python then binds to the variable. *)
From Verif Require Import M_Py M_Fixed8.

Inductive f8bin := BAdd | BSub | BMul | BTrueDiv | BFloorDiv | BMod.
Inductive f8inp := IAdd | ISub | IMul | ITrueDiv | IMod.
Inductive f8un := UNeg | UCeil | UFloor.
Definition bin_fn (o : f8bin) : Z -> Z -> res Z :=
  match o with BAdd => f8_add | BSub => f8_sub | BMul => f8_mul | BTrueDiv => f8_truediv | BFloorDiv => f8_floordiv | BMod => f8_mod end.
Definition inp_fn (o : f8inp) : Z -> Z -> res Z :=
  match o with IAdd => f8_iadd | ISub => f8_isub | IMul => f8_imul | ITrueDiv => f8_itruediv | IMod => f8_imod end.
Definition un_fn (o : f8un) : Z -> res Z := match o with UNeg => f8_neg | UCeil => Ceil | UFloor => Floor end.

(** Fixed8 objects (their value attribute) in order of creation, and variables. *)
Record f8world := mkF8 { f8_objs : list Z; f8_vars : list nat }.
Inductive f8stmt :=
| SNew (z : Z)                        (* v = Fixed8(z), a new variable *)
| SAlias (i : nat)                    (* v = vars[i] *)
| SUn (o : f8un) (i : nat)            (* v = -vars[i] etc. *)
| SBin (o : f8bin) (i j : nat)        (* v = vars[i] op vars[j] *)
| SInplace (o : f8inp) (i j : nat).   (* vars[i] op= vars[j] *)

Fixpoint set_nth {A} (l : list A) (i : nat) (x : A) : list A :=
  match l, i with [], _ => [] | _ :: r, O => x :: r | y :: r, S k => y :: set_nth r k x end.
Definition value_in (w : f8world) (i : nat) : option Z :=
  match nth_error (f8_vars w) i with Some o => nth_error (f8_objs w) o | None => None end.
(** A statement that raises leaves everything as it was. *)
Definition f8step (w : f8world) (s : f8stmt) : f8world :=
  let fresh := length (f8_objs w) in
  let push r := match r with
                | Ok z => mkF8 (f8_objs w ++ [z]) (f8_vars w ++ [fresh])
                | Raise _ => w
                end in
  match s with
  | SNew z => push (Ok z)
  | SAlias i => match nth_error (f8_vars w) i with Some o => mkF8 (f8_objs w) (f8_vars w ++ [o]) | None => w end
  | SUn o i => match value_in w i with Some a => push (un_fn o a) | None => w end
  | SBin o i j => match value_in w i, value_in w j with Some a, Some b => push (bin_fn o a b) | _, _ => w end
  | SInplace o i j =>
      match value_in w i, value_in w j with
      | Some a, Some b =>
          match inp_fn o a b with
          | Ok z => mkF8 (f8_objs w ++ [z]) (set_nth (f8_vars w) i fresh)
          | Raise _ => w
          end
      | _, _ => w
      end
  end.
Definition run_f8 (l : list f8stmt) (w : f8world) : f8world := fold_left f8step l w.
