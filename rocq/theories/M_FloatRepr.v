(** * M_FloatRepr: str(float), and Fixed8.ToString / ToNeoJsonString

    CPython's float.__str__ = float_repr_style 'short': the shortest decimal that reads back as
    the same float, the nearest one if there are several; exponent form below 1e-4 and from
    1e16 on.  Runtime behaviour (trusted, see DESIGN.md). *)
From Coq Require Import String Floats.SpecFloat.
From Verif Require Import M_Py M_Float M_Fixed8.

(** str(n) for n >= 0 *)
Fixpoint dec_text_aux (fuel : nat) (n : Z) : pystr :=
  match fuel with
  | O => [48 + n]
  | S k => if n <? 10 then [48 + n] else dec_text_aux k (n / 10) ++ [48 + n mod 10]
  end.
Definition dec_text (n : Z) : pystr := dec_text_aux (Z.to_nat (Z.log2 n)) n.

(** float("d e k") is the float m 2^e *)
Definition reads_back (m : positive) (e d k : Z) : bool :=
  match float_of_fraction false (d * 10 ^ Z.max 0 k) (10 ^ Z.max 0 (- k)) with
  | S754_finite false m' e' => (m' =? m)%positive && (e' =? e)
  | _ => false
  end.
(** Try d 10^k with d just below and just above m 2^e, for k downwards from a power of ten that
    is larger than m 2^e down to the k for which m 2^e itself is a d 10^k. *)
Fixpoint shortest_from (fuel : nat) (m : positive) (e k : Z) : Z * Z :=
  let num := Zpos m * 2 ^ Z.max 0 e * 10 ^ Z.max 0 (- k) in
  let den := 2 ^ Z.max 0 (- e) * 10 ^ Z.max 0 k in
  let lo := num / den in
  let r := num mod den in
  match reads_back m e lo k, reads_back m e (lo + 1) k with
  | true, true => (if 2 * r <? den then lo else if den <? 2 * r then lo + 1 else if Z.even lo then lo else lo + 1, k)
  | true, false => (lo, k)
  | false, true => (lo + 1, k)
  | false, false => match fuel with O => (lo, k) | S f => shortest_from f m e (k - 1) end
  end.
Definition shortest (m : positive) (e : Z) : Z * Z :=
  let j := Zpos (digits2_pos m) + e in
  let k := if 0 <=? j then j / 3 + 1 else - ((- j) / 4) in
  shortest_from (Z.to_nat (k - Z.min 0 e)) m e k.

Definition zeros (n : Z) : pystr := repeat 48 (Z.to_nat n).
(** the exponent: sign and at least two digits *)
Definition exp_text (x : Z) : pystr :=
  [if x <? 0 then 45 else 43] ++ (if Z.abs x <? 10 then [48] else []) ++ dec_text (Z.abs x).
(** d 10^k, d > 0 *)
Definition format_short (d k : Z) : pystr :=
  let ds := dec_text d in
  let n := zlen ds in
  let p := n + k in
  if (p <=? -4) || (16 <? p) then
    match ds with
    | c :: r => [c] ++ match r with [] => [] | _ => str "." ++ r end ++ str "e" ++ exp_text (p - 1)
    | [] => []
    end
  else if p <=? 0 then str "0." ++ zeros (- p) ++ ds
  else if n <=? p then ds ++ zeros (p - n) ++ str ".0"
  else firstn (Z.to_nat p) ds ++ str "." ++ skipn (Z.to_nat p) ds.
Definition float_repr (f : pyfloat) : pystr :=
  match f with
  | S754_nan => str "nan"
  | S754_infinity s => (if s then str "-" else []) ++ str "inf"
  | S754_zero s => (if s then str "-" else []) ++ str "0.0"
  | S754_finite s m e => (if s then str "-" else []) ++ let '(d, k) := shortest m e in format_short d k
  end.

(** Fixed8.py:135-136 ToString, 144-145 __str__ *)
Definition ToString (v : Z) : res pystr := do q <- int_truediv v D; Ok (float_repr q).
(** Fixed8.py:138-142 ToNeoJsonString: strval[-2:] and strval[:-2] *)
Definition ToNeoJsonString (v : Z) : res pystr :=
  do strval <- ToString v;
  if pystr_eqb (skipn (length strval - 2) strval) (str ".0") then Ok (firstn (length strval - 2) strval)
  else Ok strval.
