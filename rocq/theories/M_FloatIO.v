(** * M_FloatIO: BinaryWriter.WriteFloat/WriteDouble and BinaryReader.ReadFloat/ReadDouble

    struct's formats 'f' and 'd' (CPython's PyFloat_Pack4/8 and PyFloat_Unpack4/8 on IEEE 754
    hardware).  Sign and payload of a NaN are not modelled: a NaN is written as the positive
    quiet NaN without payload. *)
From Coq Require Import Floats.SpecFloat.
From Verif Require Import M_Py M_Float M_UInt M_Writer M_Reader.

(** the two formats: fraction bits, exponent bits, bytes *)
Inductive ffmt := FSingle | FDouble.
Definition frac_bits (f : ffmt) : Z := match f with FSingle => 23 | FDouble => 52 end.
Definition exp_bits (f : ffmt) : Z := match f with FSingle => 8 | FDouble => 11 end.
Definition fwidth (f : ffmt) : nat := match f with FSingle => 4 | FDouble => 8 end.
(** the exponent of the smallest subnormal number *)
Definition f_emin (f : ffmt) : Z := match f with FSingle => -149 | FDouble => -1074 end.

(** sign bit, biased exponent, fraction, of a number of the format *)
Definition bits_of (f : ffmt) (x : spec_float) : Z :=
  let mw := frac_bits f in
  let ew := exp_bits f in
  let sign (s : bool) := if s then 2 ^ (ew + mw) else 0 in
  match x with
  | S754_zero s => sign s
  | S754_infinity s => sign s + (2 ^ ew - 1) * 2 ^ mw
  | S754_nan => (2 ^ ew - 1) * 2 ^ mw + 2 ^ (mw - 1)
  | S754_finite s m e =>
      if Zpos m <? 2 ^ mw then sign s + Zpos m
      else sign s + (e - f_emin f + 1) * 2 ^ mw + (Zpos m - 2 ^ mw)
  end.
Definition of_bits (f : ffmt) (b : Z) : spec_float :=
  let mw := frac_bits f in
  let ew := exp_bits f in
  let s := 2 ^ (ew + mw) <=? b in
  let ex := (b / 2 ^ mw) mod 2 ^ ew in
  let fr := b mod 2 ^ mw in
  if ex =? 0 then match fr with Zpos m => S754_finite s m (f_emin f) | _ => S754_zero s end
  else if ex =? 2 ^ ew - 1 then (if fr =? 0 then S754_infinity s else S754_nan)
  else match fr + 2 ^ mw with Zpos m => S754_finite s m (ex - 1 + f_emin f) | _ => S754_nan end.

(** (float)x: to the nearest single, ties to even; OverflowError if that is infinite *)
Definition narrow (x : pyfloat) : res spec_float :=
  match x with
  | S754_finite s m e =>
      match binary_round 24 128 s m e with S754_infinity _ => Raise OverflowError | y => Ok y end
  | _ => Ok x
  end.
(** (double)x: exact *)
Definition widen (x : spec_float) : pyfloat :=
  match x with S754_finite s m e => binary_round fprec femax s m e | _ => x end.

(** The argument of struct.pack: PyFloat_AsDouble takes floats and ints (bool included); any
    failure, also an int too large for a float, becomes struct.error. *)
Inductive num_arg := AFloat (f : pyfloat) | AInt (z : Z) | AOther.
Definition as_double (a : num_arg) : res pyfloat :=
  match a with
  | AFloat f => Ok f
  | AInt z => match float_of_int z with Ok f => Ok f | Raise _ => Raise StructError end
  | AOther => Raise StructError
  end.

(** BinaryWriter.py:132-143 WriteFloat *)
Definition WriteFloat (value : num_arg) (e : endian) : io Z :=
  b <-- ilift (do x <- as_double value; do y <- narrow x; Ok (z2bytes e 4 (bits_of FSingle y))) ;
  WriteBytes (VBytes b) false.
(** BinaryWriter.py:145-156 WriteDouble *)
Definition WriteDouble (value : num_arg) (e : endian) : io Z :=
  b <-- ilift (do x <- as_double value; Ok (z2bytes e 8 (bits_of FDouble x))) ;
  WriteBytes (VBytes b) false.
(** BinaryReader.py:111-121 ReadFloat *)
Definition ReadFloat (e : endian) : io pyfloat :=
  b <-- bio_read 4 ;
  ilift (if zlen b =? 4 then Ok (widen (of_bits FSingle (bytes2z e b))) else Raise StructError).
(** BinaryReader.py:123-133 ReadDouble *)
Definition ReadDouble (e : endian) : io pyfloat :=
  b <-- bio_read 8 ;
  ilift (if zlen b =? 8 then Ok (of_bits FDouble (bytes2z e b)) else Raise StructError).
