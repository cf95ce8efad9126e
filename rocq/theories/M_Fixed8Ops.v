(** * M_Fixed8Ops: Fixed8's operators applied to any object (neocore/Fixed8.py:72-124)

    Every operator of Fixed8 reads other.value without looking at the type of other.  M_Fixed8 has
    the operators on the two values; here the operands are objects. *)
From Verif Require Import M_Py M_Fixed8 M_Fixed8Heap.

(** An object next to a Fixed8 (values are ints; M_Fixed8Big has BigIntegers). *)
Inductive object :=
| OFixed8 (v : Z)      (* a Fixed8 *)
| OValued (v : Z)      (* an object of another class that has an int attribute called value, such as
                          FiniteField.Value (ECCurve.py:199-201) on the right of an operator; on the
                          left it is taken to have no operators of its own *)
| OBuiltin.            (* None, an int, float, BigInteger, Decimal: no such attribute *)

(** other.value *)
Definition attr_value (o : object) : res Z :=
  match o with OFixed8 v | OValued v => Ok v | OBuiltin => Raise AttributeError end.

(** Fixed8.py:72-103: f op other and f op= other *)
Definition op_bin (o : f8bin) (f : Z) (other : object) : res Z := do v <- attr_value other; bin_fn o f v.
Definition op_inp (o : f8inp) (f : Z) (other : object) : res Z := do v <- attr_value other; inp_fn o f v.
(** Fixed8.py:105-106: f ** other, exponent >= 0; pow(f, other, modulo) *)
Definition op_pow (f : Z) (other : object) : res Z := do v <- attr_value other; f8_pow f v.
(** Fixed8.py:111-124; != is Python's negation of __eq__ *)
Inductive f8cmp := CEq | CNe | CLt | CGt | CLe | CGe.
Definition cmp_fn (c : f8cmp) : Z -> Z -> bool :=
  match c with
  | CEq => f8_eq | CNe => fun a b => negb (f8_eq a b) | CLt => f8_lt | CGt => f8_gt | CLe => f8_le | CGe => f8_ge
  end.
Definition op_cmp (c : f8cmp) (f : Z) (other : object) : res bool := do v <- attr_value other; Ok (cmp_fn c f v).

(** other op f for an other that is no Fixed8: its own method returns NotImplemented.  Fixed8 has no
    reflected arithmetic (no __radd__ and so on), so arithmetic is a TypeError; a comparison is
    tried the other way round, on the Fixed8. *)
Definition mirror (c : f8cmp) : f8cmp :=
  match c with CEq => CEq | CNe => CNe | CLt => CGt | CGt => CLt | CLe => CGe | CGe => CLe end.
Definition rop_bin (o : f8bin) (other : object) (f : Z) : res Z :=
  match other with OFixed8 v => op_bin o v (OFixed8 f) | _ => Raise TypeError end.
Definition rop_cmp (c : f8cmp) (other : object) (f : Z) : res bool :=
  match other with OFixed8 v => op_cmp c v (OFixed8 f) | _ => op_cmp (mirror c) f other end.

(** bool(f): Fixed8 has neither __bool__ nor __len__ *)
Definition f8_truth (f : Z) : bool := true.
(** hash(f): __eq__ without __hash__ makes instances unhashable, so no dict keys or set members *)
Definition f8_hash (f : Z) : res Z := Raise TypeError.

(** f in l: items are compared one after the other (the comparison by identity that comes first
    changes nothing: an object equals itself) *)
Fixpoint f8_in (f : Z) (l : list object) : res bool :=
  match l with
  | [] => Ok false
  | x :: r => do b <- op_cmp CEq f x; if b then Ok true else f8_in f r
  end.

(** sum(l, start): start + l[0] + l[1] + ... *)
Fixpoint f8_sum_from (acc : Z) (l : list object) : res Z :=
  match l with [] => Ok acc | x :: r => do a <- op_bin BAdd acc x; f8_sum_from a r end.
(** sum(l, Fixed8(z)) *)
Definition f8_sum (start : Z) (l : list object) : res Z := f8_sum_from start l.
(** sum(l): starts with the int 0; [None] is that int 0 *)
Definition f8_sum_default (l : list Z) : res (option Z) :=
  match l with
  | [] => Ok None
  | x :: r => do a <- rop_bin BAdd OBuiltin x; do t <- f8_sum_from a (map OFixed8 r); Ok (Some t)
  end.
