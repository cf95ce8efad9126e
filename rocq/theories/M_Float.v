(** * M_Float: Python's float (IEEE 754 binary64) as CPython computes it

    Runtime behaviour (trusted, see DESIGN.md), built on the standard library's
    executable IEEE semantics Coq.Floats.SpecFloat.  A NaN carries no payload. *)
From Coq Require Import String Floats.SpecFloat.
From Verif Require Import M_Py.

Definition pyfloat := spec_float.
Definition fprec : Z := 53.
Definition femax : Z := 1024.

(** The float nearest (ties to even) to (-1)^s n/d, n and d positive; infinite if too large. *)
Definition float_of_ratio (s : bool) (n d : positive) : pyfloat :=
  let '(m, e, l) := SFdiv_core_binary fprec femax (Zpos n) 0 (Zpos d) 0 in
  binary_round_aux fprec femax s m e l.

(** a / b on ints (long_true_divide): correctly rounded, ZeroDivisionError for b = 0,
    OverflowError when the quotient is too large for a float. *)
Definition int_truediv (a b : Z) : res pyfloat :=
  match a, b with
  | _, Z0 => Raise ZeroDivisionError
  | Z0, _ => Ok (S754_zero (b <? 0))
  | _, _ =>
      match float_of_ratio (xorb (a <? 0) (b <? 0)) (Z.to_pos (Z.abs a)) (Z.to_pos (Z.abs b)) with
      | S754_infinity _ => Raise OverflowError
      | f => Ok f
      end
  end.

(** float(z) (PyLong_AsDouble): nearest float, OverflowError when too large. *)
Definition float_of_int (z : Z) : res pyfloat :=
  match binary_normalize fprec femax z 0 false with
  | S754_infinity _ => Raise OverflowError
  | f => Ok f
  end.

(** x * y on floats *)
Definition fmul (x y : pyfloat) : pyfloat := SFmul fprec femax x y.

(** x < 0, bool(x) *)
Definition fneg (x : pyfloat) : bool := SFltb x (S754_zero false).
Definition ftruthy (x : pyfloat) : bool := match x with S754_zero _ => false | _ => true end.

Definition cond_neg (s : bool) (z : Z) : Z := if s then - z else z.
(** (-1)^s m 2^e rounded towards minus infinity *)
Definition floor_dyadic (s : bool) (m : positive) (e : Z) : Z :=
  if 0 <=? e then cond_neg s (Zpos m) * 2 ^ e else cond_neg s (Zpos m) / 2 ^ (- e).

(** math.floor(x) *)
Definition py_floor (x : pyfloat) : res Z :=
  match x with
  | S754_zero _ => Ok 0
  | S754_infinity _ => Raise OverflowError
  | S754_nan => Raise ValueError
  | S754_finite s m e => Ok (floor_dyadic s m e)
  end.
(** math.ceil(x) *)
Definition py_ceil (x : pyfloat) : res Z :=
  match x with
  | S754_zero _ => Ok 0
  | S754_infinity _ => Raise OverflowError
  | S754_nan => Raise ValueError
  | S754_finite s m e => Ok (- floor_dyadic (negb s) m e)
  end.
(** int(x): towards zero *)
Definition py_int (x : pyfloat) : res Z :=
  match x with
  | S754_zero _ => Ok 0
  | S754_infinity _ => Raise OverflowError
  | S754_nan => Raise ValueError
  | S754_finite s m e => Ok (cond_neg s (floor_dyadic false m e))
  end.

(** ** float(text) and int(text) on ASCII text

    Leading/trailing ASCII whitespace is skipped; a digit string may contain single
    underscores between digits; then  [sign] (digits [. [digits]] | . digits) [e [sign] digits]
    or, ignoring case, inf / infinity / nan.  Non-ASCII characters (Unicode digits and
    blanks) are translated first, see M_Parse; untranslated they are unparsable. *)
Definition is_digit (c : Z) : bool := (48 <=? c) && (c <=? 57).
Fixpoint drop_spaces (s : pystr) : pystr :=
  match s with c :: r => if is_space c then drop_spaces r else s | [] => [] end.
Definition strip (s : pystr) : pystr := rev (drop_spaces (rev (drop_spaces s))).

(** Underscores: each must stand between two digits; they are removed. *)
Fixpoint drop_underscores (prev_digit : bool) (s : pystr) : option pystr :=
  match s with
  | [] => Some []
  | c :: r =>
      if c =? 95 then
        match r with
        | d :: _ => if prev_digit && is_digit d then drop_underscores false r else None
        | [] => None
        end
      else option_map (cons c) (drop_underscores (is_digit c) r)
  end.

(** The longest prefix of digits. *)
Fixpoint take_digits (s : pystr) : pystr * pystr :=
  match s with
  | c :: r => if is_digit c then let '(d, r') := take_digits r in (c :: d, r') else ([], s)
  | [] => ([], [])
  end.
Definition dec_value (l : pystr) : Z := fold_left (fun n c => 10 * n + (c - 48)) l 0.
Definition take_sign (s : pystr) : bool * pystr :=
  match s with
  | c :: r => if c =? 45 then (true, r) else if c =? 43 then (false, r) else (false, s)
  | [] => (false, [])
  end.
(** Exponent part: nothing, or e/E [sign] digits. *)
Definition parse_exp (s : pystr) : option Z :=
  match s with
  | [] => Some 0
  | c :: r =>
      if (c =? 101) || (c =? 69) then
        let '(neg, r1) := take_sign r in
        let '(d, r2) := take_digits r1 in
        match d, r2 with
        | _ :: _, [] => Some (cond_neg neg (dec_value d))
        | _, _ => None
        end
      else None
  end.
Definition lower_ascii (c : Z) : Z := if (65 <=? c) && (c <=? 90) then c + 32 else c.
Definition pystr_eqb (a b : pystr) : bool := if list_eq_dec Z.eq_dec a b then true else false.

(** A decimal literal as the exact fraction it denotes: sign, numerator, denominator. *)
Definition parse_decimal (s : pystr) : option (bool * Z * Z) :=
  let '(neg, s1) := take_sign s in
  let '(ip, s2) := take_digits s1 in
  let '(fp, s3) := match s2 with
                   | c :: r => if c =? 46 then take_digits r else ([], s2)
                   | [] => ([], [])
                   end in
  match ip ++ fp with
  | [] => None
  | ds =>
      match parse_exp s3 with
      | None => None
      | Some ex =>
          let e10 := ex - zlen fp in
          Some (neg, dec_value ds * 10 ^ Z.max 0 e10, 10 ^ Z.max 0 (- e10))
      end
  end.
(** The nearest float to a fraction n/d, n >= 0, d > 0. *)
Definition float_of_fraction (s : bool) (n d : Z) : pyfloat :=
  match n, d with
  | Zpos n, Zpos d => float_of_ratio s n d
  | _, _ => S754_zero s
  end.
Definition parse_special (s : pystr) : option pyfloat :=
  let '(neg, s1) := take_sign s in
  let w := map lower_ascii s1 in
  if pystr_eqb w (str "inf") || pystr_eqb w (str "infinity") then Some (S754_infinity neg)
  else if pystr_eqb w (str "nan") then Some S754_nan
  else None.
(** float(s) for a str; None = ValueError *)
Definition float_of_text (s : pystr) : option pyfloat :=
  match drop_underscores false (strip s) with
  | None => None
  | Some t =>
      match parse_decimal t with
      | Some (neg, n, d) => Some (float_of_fraction neg n d)
      | None => parse_special t
      end
  end.
(** int(s) for a str; None = ValueError *)
Definition int_of_text (s : pystr) : option Z :=
  match drop_underscores false (strip s) with
  | None => None
  | Some t =>
      let '(neg, s1) := take_sign t in
      let '(d, r) := take_digits s1 in
      match d, r with
      | _ :: _, [] => Some (cond_neg neg (dec_value d))
      | _, _ => None
      end
  end.
