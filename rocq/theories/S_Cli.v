(** * S_Cli: vocabulary for C84 *)
From Coq Require Import String.
From Verif Require Import M_Py S_IO M_Cli.

(** Python's bytes literals: the characters between the quotes [q] stand for the bytes. *)
Inductive literal_body (q : Z) : pystr -> bytes -> Prop :=
| lit_end : literal_body q [] []
| lit_plain x r b : 32 <= b2z x < 127 -> b2z x <> q -> b2z x <> 92 -> literal_body q r b -> literal_body q (b2z x :: r) (x :: b)
| lit_escaped x r b : In x [x5c; x27; x22] -> literal_body q r b -> literal_body q (92 :: b2z x :: r) (x :: b)
| lit_tab r b : literal_body q r b -> literal_body q (str "\t" ++ r) (x09 :: b)
| lit_newline r b : literal_body q r b -> literal_body q (str "\n" ++ r) (x0a :: b)
| lit_return r b : literal_body q r b -> literal_body q (str "\r" ++ r) (x0d :: b)
| lit_hex d x r b : hex_denotes d [x] -> literal_body q r b -> literal_body q (str "\x" ++ d ++ r) (x :: b).
Definition bytes_literal (s : pystr) (b : bytes) : Prop :=
  exists q body, (q = 39 \/ q = 34) /\ s = [98; q] ++ body ++ [q] /\ literal_body q body b.

(** the lines and the ending of several runs, one after another, the first failure being the last *)
Inductive one_after_another : list (list pystr * ending) -> list pystr * ending -> Prop :=
| run_none : one_after_another [] ([], EndOfMain)
| run_next l r l' e : one_after_another r (l', e) -> one_after_another ((l, EndOfMain) :: r) (l ++ l', e)
| run_stop l e r : e <> EndOfMain -> one_after_another ((l, e) :: r) (l, e).
