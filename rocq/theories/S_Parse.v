(** * S_Parse: the texts Python's float() accepts, for C107
    (the grammar of the Python reference: built-in function float, with PEP 515 underscores) *)
From Coq Require Import Reals String Floats.SpecFloat.
From Flocq Require Import BinarySingleNaN.
From Verif Require Import M_Py M_Float M_Fixed8 M_Parse S_Fixed8.
Open Scope Z_scope.

(** one or more digits, with at most one underscore between two digits; the second argument is the
    digits without the underscores *)
Inductive digit_part : pystr -> pystr -> Prop :=
| dp_last c : digit_code c -> digit_part [c] [c]
| dp_next c s ds : digit_code c -> digit_part s ds -> digit_part (c :: s) (c :: ds)
| dp_underscore c s ds : digit_code c -> digit_part s ds -> digit_part (c :: str "_" ++ s) (c :: ds).
(** nothing, + or - *)
Inductive sign_part : pystr -> bool -> Prop :=
| sp_none : sign_part [] false
| sp_plus : sign_part (str "+") false
| sp_minus : sign_part (str "-") true.
(** digits, digits., .digits or digits.digits: the digits before and after the point *)
Inductive mantissa : pystr -> pystr -> pystr -> Prop :=
| mt_whole a ip : digit_part a ip -> mantissa a ip []
| mt_point a ip : digit_part a ip -> mantissa (a ++ str ".") ip []
| mt_fraction b fp : digit_part b fp -> mantissa (str "." ++ b) [] fp
| mt_both a ip b fp : digit_part a ip -> digit_part b fp -> mantissa (a ++ str "." ++ b) ip fp.
(** nothing, or e (E), a sign and digits *)
Inductive exponent_part : pystr -> Z -> Prop :=
| ep_none : exponent_part [] 0
| ep_some l sg neg d ds : l = str "e" \/ l = str "E" -> sign_part sg neg -> digit_part d ds ->
    exponent_part (l ++ sg ++ d) ((if neg then -1 else 1) * decimal_number ds).
(** blank, tab, line feed, vertical tab, form feed, carriage return *)
Definition blanks (s : pystr) : Prop := Forall (fun c => c = 32 \/ 9 <= c <= 13) s.

(** what a text means: a number (with its sign, which also -0 has), an infinity or not-a-number *)
Inductive meaning : Type := Number (neg : bool) (x : R) | Infinite (neg : bool) | NotANumber.
Definition same_but_case (s : pystr) (w : string) : Prop := Forall2 (fun c l => c = l \/ c = l - 32) s (str w).
Inductive float_text : pystr -> meaning -> Prop :=
| ft_number b1 sg neg m ip fp ex e b2 : blanks b1 -> blanks b2 -> sign_part sg neg -> mantissa m ip fp -> exponent_part ex e ->
    float_text (b1 ++ sg ++ m ++ ex ++ b2)
      (Number neg ((if neg then -1 else 1) * IZR (decimal_number (ip ++ fp)) * powerRZ 10 (e - zlen fp)))
| ft_infinite b1 sg neg w b2 : blanks b1 -> blanks b2 -> sign_part sg neg -> same_but_case w "inf" \/ same_but_case w "infinity" ->
    float_text (b1 ++ sg ++ w ++ b2) (Infinite neg)
| ft_nan b1 sg neg w b2 : blanks b1 -> blanks b2 -> sign_part sg neg -> same_but_case w "nan" ->
    float_text (b1 ++ sg ++ w ++ b2) NotANumber.

(** ** what an argument of TryParse means *)
(** one character of a str as float() and int() read it: ASCII, a white space of Unicode, a decimal
    digit of Unicode *)
Definition reads_char (U : unicode) (c t : Z) : Prop :=
  (c < 127 /\ t = c) \/ (127 <= c /\ u_space U c = true /\ t = 32) \/
  (127 <= c /\ u_space U c = false /\ exists d, u_decimal U c = Some d /\ t = 48 + d).
(** decimal digits have values from 0 to 9, and DEL is neither a digit nor white space *)
Definition unicode_ok (U : unicode) : Prop :=
  (forall c d, u_decimal U c = Some d -> 0 <= d <= 9) /\ u_space U 127 = false /\ u_decimal U 127 = None.
Inductive means (U : unicode) : any_arg -> meaning -> Prop :=
| mn_text s t v : Forall2 (reads_char U) s t -> float_text t v -> means U (AText s) v
| mn_bytes b v : float_text (map b2z b) v -> means U (ABytes b) v
| mn_float f : is_finite_SF f = true -> valid_binary 53 1024 f = true -> means U (AFloat f) (Number (sign_SF f) (SF2R Zaux.radix2 f))
| mn_float_inf neg : means U (AFloat (S754_infinity neg)) (Infinite neg)
| mn_float_nan : means U (AFloat S754_nan) NotANumber
| mn_decimal neg c e : 0 <= c -> means U (ADecimal (mkDec neg c e)) (Number neg ((if neg then -1 else 1) * IZR c * powerRZ 10 e))
| mn_dec_inf neg : means U (ADecInf neg) (Infinite neg)
| mn_dec_nan : means U (ADecNaN false) NotANumber.
