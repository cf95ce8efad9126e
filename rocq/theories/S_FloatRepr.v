(** * S_FloatRepr: how amounts are printed, for C83 *)
From Coq Require Import String.
From Verif Require Import M_Py S_Fixed8.

Definition sign_text (neg : bool) : pystr := if neg then str "-" else [].
(** digits, point, at least one digit; no superfluous zero in front or at the end *)
Definition amount_text (neg : bool) (ip fp : pystr) (s : pystr) : Prop :=
  s = sign_text neg ++ ip ++ str "." ++ fp /\ ip <> [] /\ fp <> [] /\ Forall digit_code ip /\ Forall digit_code fp /\
  (ip = str "0" \/ hd 48 ip <> 48) /\ (fp = str "0" \/ last fp 48 <> 48).
(** one non-zero digit, point and more digits if there are more, e-05 .. e-08 *)
Definition small_text (neg : bool) (c : Z) (r : pystr) (p : Z) (s : pystr) : Prop :=
  s = sign_text neg ++ [c] ++ (match r with [] => [] | _ => str "." ++ r end) ++ str "e-0" ++ [48 + p] /\
  5 <= p <= 8 /\ digit_code c /\ c <> 48 /\ Forall digit_code r /\ (r = [] \/ last r 48 <> 48).
