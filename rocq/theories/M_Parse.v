(** * M_Parse: Fixed8.TryParse (Fixed8.py:51-70) on an argument of any type

    What TryParse does depends on its argument only through float(value) and int(value). *)
From Verif Require Import M_Py M_Float M_Fixed8.

(** CPython, _PyUnicode_TransformDecimalAndSpaceToASCII (float() and int() of a str): an ASCII text
    stays as it is; otherwise characters from 127 on become a blank if the Unicode database calls
    them white space, their digit if it calls them decimal digits, and otherwise '?'. *)
Record unicode := mkUnicode { u_space : Z -> bool; u_decimal : Z -> option Z }.
Definition to_ascii_char (U : unicode) (c : Z) : Z :=
  if c <? 127 then c else if u_space U c then 32 else match u_decimal U c with Some d => 48 + d | None => 63 end.
Definition to_ascii (U : unicode) (s : pystr) : pystr :=
  if forallb (fun c => c <? 128) s then s else map (to_ascii_char U) s.

(** the argument: a str, bytes or bytearray (read like the ASCII text), an int (also bool and
    BigInteger), a float, a finite Decimal, Decimal's infinities and nans (quiet or signalling),
    and any other object, given by what its float() and int() return or raise ([None]) *)
Inductive any_arg :=
| AText (s : pystr)
| ABytes (b : bytes)
| AInt (z : Z)
| AFloat (f : pyfloat)
| ADecimal (d : decimal)
| ADecInf (neg : bool)
| ADecNaN (signalling : bool)
| AOther (as_float : option pyfloat) (as_int : option Z).
(** float(Decimal) (PyDec_AsFloat): float(str(d)), the nearest float *)
Definition float_of_dec (d : decimal) : pyfloat :=
  float_of_fraction (d_sign d) (d_coef d * 10 ^ Z.max 0 (d_exp d)) (10 ^ Z.max 0 (- d_exp d)).
(** float(value); [None]: it raises *)
Definition arg_float (U : unicode) (v : any_arg) : option pyfloat :=
  match v with
  | AText s => float_of_text (to_ascii U s)
  | ABytes b => float_of_text (map b2z b)
  | AInt z => res_opt (float_of_int z)
  | AFloat f => Some f
  | ADecimal d => Some (float_of_dec d)
  | ADecInf neg => Some (SpecFloat.S754_infinity neg)
  | ADecNaN signalling => if signalling then None else Some SpecFloat.S754_nan
  | AOther f _ => f
  end.
(** int(value); [None]: it raises *)
Definition arg_int (U : unicode) (v : any_arg) : option Z :=
  match v with
  | AText s => int_of_text (to_ascii U s)
  | ABytes b => int_of_text (map b2z b)
  | AInt z => Some z
  | AFloat f => res_opt (py_int f)
  | ADecimal d => Some (int_of_dec d)
  | ADecInf _ | ADecNaN _ => None
  | AOther _ i => i
  end.
(** Fixed8.py:51-70 TryParse *)
Definition TryParse_any (U : unicode) (value : any_arg) (require_positive : bool) : res (option Z) :=
  finish_parse (second_try (arg_float U value) (arg_int U value)) require_positive.
