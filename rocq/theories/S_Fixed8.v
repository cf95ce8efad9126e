(** * S_Fixed8: vocabulary for C39-C44 *)
From Coq Require Import String.
From Verif Require Import M_Py.

(** The number written by a list of decimal digits. *)
Definition digit_code (c : Z) : Prop := 48 <= c <= 57.
Definition decimal_number (l : pystr) : Z := fold_left (fun n c => 10 * n + (c - 48)) l 0.

(** A plain decimal text: optional minus sign, digits, and optionally a point and more digits. *)
Definition plain_decimal (neg : bool) (ip fp : pystr) (s : pystr) : Prop :=
  ip <> [] /\ Forall digit_code ip /\ Forall digit_code fp /\
  (s = (if neg then str "-" else []) ++ ip ++ str "." ++ fp \/
   fp = [] /\ s = (if neg then str "-" else []) ++ ip).
(** The satoshi (10^-8) the digits before and after the point stand for, for at most 8 digits after it. *)
Definition satoshi_of (ip fp : pystr) : Z := decimal_number (ip ++ fp) * 10 ^ (8 - zlen fp).
(** [r] is [n], or one closer to zero. *)
Definition at_most_one_short (r n : Z) : Prop := r = n \/ r = n - Z.sgn n.

(** ten to the millionth: from here on a number is out of range of Python's default decimal context *)
Definition decimal_limit : Z := 10 ^ 1000000.
