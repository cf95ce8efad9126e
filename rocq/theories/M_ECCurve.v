(** * M_ECCurve: neocore/Cryptography/ECCurve.py

    A FiniteField.Value is modelled by its integer [value]; the field object by its
    modulus p.  Every operator first passes its right operand through
    field.value (ECCurve.py:204-239, 316-320), which re-wraps the raw integer of a value
    of another field object, so samefield (:31-37) holds at every call and two field
    objects with the same modulus behave alike (M_FieldObj models the objects; C97 and C98
    prove it).  ECPoint is the pair of its coordinates
    together with the curve (a record) passed to each function. *)
From Coq Require Import String Floats.SpecFloat.
From Verif Require Import M_Py M_Float M_UInt M_Writer M_Reader.

(** ** integers *)

(** ECCurve.py:19-23 GCD.  The recursion is on explicit fuel; GCD returns None only if it
    runs out (it does not: C64).  Python's recursion limit: M_Recursion. *)
Fixpoint GCD_fuel (fuel : nat) (a b : Z) : option (Z * Z * Z) :=
  match fuel with
  | O => None
  | S k =>
      if a =? 0 then Some (b, 0, 1)
      else match GCD_fuel k (b mod a) a with
           | Some (d1, x1, y1) => Some (d1, y1 - (b / a) * x1, x1)
           | None => None
           end
  end.
Definition GCD (a b : Z) : option (Z * Z * Z) := GCD_fuel (Z.to_nat (2 * bit_length a) + 2) a b.

(** ECCurve.py:26-28 modinv (0 stands for the unreachable None) *)
Definition modinv (x m : Z) : Z :=
  match GCD x m with Some (_, c, _) => c | None => 0 end.

(** ECCurve.py:40-43 test_bit *)
Definition test_bit (num index : Z) : bool := negb (Z.land num (Z.shiftl 1 index) =? 0).

(** ECCurve.py:13 modpow = pow: pow(a, e, m) for e >= 0, m > 0, by squaring (negative
    exponents, which Python 3.8 accepts, are not modelled) *)
Fixpoint powmod_pos (a : Z) (e : positive) (m : Z) : Z :=
  match e with
  | xH => a mod m
  | xO e' => let r := powmod_pos a e' m in (r * r) mod m
  | xI e' => let r := powmod_pos a e' m in ((r * r) mod m * a) mod m
  end.
Definition modpow (a e m : Z) : Z :=
  match e with Z0 => 1 mod m | Zpos p => powmod_pos a p m | Zneg _ => 0 end.

(** int(a / b): true division of integers, truncated *)
Definition int_div (a b : Z) : res Z := do f <- int_truediv a b; py_int f.

(** ECCurve.py:51-64 next_random_integer; [rnd] lists what random.getrandbits(8) yields
    (:46-48 randbytes), at least balen of them. *)
Definition next_random_integer (rnd : list byte) (size_in_bits : Z) : res Z :=
  if size_in_bits <? 0 then Raise PlainException
  else if size_in_bits =? 0 then Ok 0
  else
    do q <- int_div size_in_bits 8;
    let balen := q + 1 in
    let ba := firstn (Z.to_nat balen) rnd in
    let last := nth (Z.to_nat (balen - 1)) ba x00 in
    let masked := if size_in_bits mod 8 =? 0 then x00
                  else z2b (Z.land (b2z last) (Z.shiftl 1 (size_in_bits mod 8) - 1)) in
    Ok (bytes2z BE (firstn (Z.to_nat (balen - 1)) ba ++ [masked])).

(** ECCurve.py:67-144 _lucas_sequence.  [half] is `if U & 1: U += n; U >>= 1`. *)
Definition half (n u : Z) : Z := Z.shiftr (if Z.land u 1 =? 0 then u else u + n) 1.
(** bit b-1 of k, (k >> (b - 1)) & 1, for the current loop counter b *)
Definition kbit (k b : Z) : bool := negb (Z.land (Z.shiftr k (b - 1)) 1 =? 0).
(** :88-101 one pass of the loop for Q == 1 *)
Definition lucas_step_1 (n P D : Z) (bit : bool) (U V : Z) : Z * Z :=
  let U := (U * V) mod n in
  let V := (V * V - 2) mod n in
  if bit then (half n (U * P + V), half n (V * P + U * D)) else (U, V).
(** :104-122 one pass of the loop for P == 1, Q == -1 *)
Definition lucas_step_2 (n D : Z) (bit : bool) (U V Qk : Z) : Z * Z * Z :=
  let U := (U * V) mod n in
  let '(V, Qk) := if Qk =? 1 then ((V * V - 2) mod n, Qk) else ((V * V + 2) mod n, 1) in
  if bit then (half n (U + V), half n (V + U * D), -1) else (U, V, Qk).
(** :125-141 one pass of the general loop *)
Definition lucas_step_3 (n P Q D : Z) (bit : bool) (U V Qk : Z) : Z * Z * Z :=
  let U := (U * V) mod n in
  let V := (V * V - 2 * Qk) mod n in
  let Qk := Qk * Qk in
  if bit then (half n (U * P + V), half n (V * P + U * D), (Qk * Q) mod n) else (U, V, Qk mod n).
(** the loops: b counts down from bit length to 1 *)
Fixpoint lucas_loop_1 (m : nat) (n P D k : Z) (U V : Z) : Z * Z :=
  match m with
  | O => (U, V)
  | S j => let '(U, V) := lucas_step_1 n P D (kbit k (Z.of_nat m)) U V in lucas_loop_1 j n P D k U V
  end.
Fixpoint lucas_loop_2 (m : nat) (n D k : Z) (U V Qk : Z) : Z * Z :=
  match m with
  | O => (U, V)
  | S j => let '(U, V, Qk) := lucas_step_2 n D (kbit k (Z.of_nat m)) U V Qk in lucas_loop_2 j n D k U V Qk
  end.
Fixpoint lucas_loop_3 (m : nat) (n P Q D k : Z) (U V Qk : Z) : Z * Z :=
  match m with
  | O => (U, V)
  | S j => let '(U, V, Qk) := lucas_step_3 n P Q D (kbit k (Z.of_nat m)) U V Qk in lucas_loop_3 j n P Q D k U V Qk
  end.
Definition lucas_sequence (n P Q k : Z) : res (Z * Z) :=
  let D := P * P - 4 * Q in
  if n <? 2 then Raise ValueError
  else if k <? 0 then Raise ValueError
  else if D =? 0 then Raise ValueError
  else if k =? 0 then Ok (0, 2)
  else
    (* after `b -= 1` the loop body sees b = bitlength - 1 .. 1 *)
    let m := Z.to_nat (bit_length k - 1) in
    let '(U, V) := if Q =? 1 then lucas_loop_1 m n P D k 1 P
                   else if (P =? 1) && (Q =? -1) then lucas_loop_2 m n D k 1 P Q
                   else lucas_loop_3 m n P Q D k 1 P Q in
    Ok (U mod n, V mod n).

(** ECCurve.py:147-185 sqrtCQ.  U starts as None, so the loop condition at :169
    (U == 1 or U == qMinusOne) is false at once and :185 returns None. *)
Definition sqrtCQ (val CQ : Z) : option Z :=
  if test_bit CQ 1 then
    let z := modpow val (Z.shiftr CQ 2 + 1) CQ in
    if (z * z) mod CQ =? val then Some z else None
  else
    let legendreExponent := Z.shiftr (CQ - 1) 1 in
    if negb (modpow val legendreExponent CQ =? 1) then None else None.

(** ** FiniteField (ECCurve.py:188-344) *)

(** :266-276 add, sub, mul, div, :278 pow, :281 eq, :284 neg *)
Definition fadd (p a b : Z) : Z := (a + b) mod p.
Definition fsub (p a b : Z) : Z := (a - b) mod p.
Definition fmul (p a b : Z) : Z := (a * b) mod p.
(** :310-314 inverse *)
Definition finverse (p a : Z) : Z := modinv a p.
Definition fdiv (p a b : Z) : Z := (a * finverse p b) mod p.
Definition fpow (p a e : Z) : Z := modpow a e p.
Definition feq (p a b : Z) : bool := (a - b) mod p =? 0.
Definition fneg_ (p a : Z) : Z := p - a.

(** arguments accepted by field.value / field.integer (:316-330): an int, a Value, a
    hexadecimal text, anything else *)
Inductive farg : Type := AInt (z : Z) | AVal (z : Z) | AHex (s : pystr).
Definition integer (x : farg) : res Z :=
  match x with
  | AInt z | AVal z => Ok z
  | AHex s => do b <- unhexlify (VStr s); Ok (bytes2z BE b)
  end.

(** :287-308 sqrt: the exponents are floating-point quotients, turned into int by pow (:279) *)
Definition fpow_float (p a : Z) (num den : Z) : res Z :=
  do e <- int_div num den; Ok (fpow p a e).
Definition fsqrt (p v flag : Z) : res Z :=
  if v =? 0 then Ok v
  else
    let sw := p mod 8 in
    do r <- (if (sw =? 3) || (sw =? 7) then fpow_float p v (p + 1) 4
             else if sw =? 5 then
               do x <- fpow_float p v (p + 1) 4;
               if feq p x 1 then fpow_float p v (p + 3) 8
               else do t <- fpow_float p (fmul p 4 v) (p - 5) 8; Ok (fmul p (fmul p t 2) v)
             else Raise PlainException);
    if r mod 2 =? flag then Ok r else Ok (fneg_ p r).

(** ** EllipticCurve (ECCurve.py:347-670) *)
Record curve := mkCurve { c_p : Z; c_a : Z; c_b : Z }.
Definition point : Type := Z * Z.

(** :424-425 iszero (exact), :537-538 eq (modulo p), :430-432 IsInfinity, :482-484 Infinity *)
Definition iszero (P : point) : bool := (fst P =? 0) && (snd P =? 0).
Definition point_eq (c : curve) (P Q : point) : bool :=
  feq (c_p c) (fst P) (fst Q) && feq (c_p c) (snd P) (snd Q).
Definition Infinity : point := (0, 0).
Definition IsInfinity (c : curve) (P : point) : bool := point_eq c P Infinity.

(** :486-509 add *)
Definition ec_add (c : curve) (P Q : point) : point :=
  if iszero P then Q
  else if iszero Q then P
  else
    let p := c_p c in
    let finish lft :=
      let x := fsub p (fpow p lft 2) (fadd p (fst P) (fst Q)) in
      let y := fsub p (fmul p lft (fsub p (fst P) x)) (snd P) in
      (x, y) in
    if point_eq c P Q then
      if feq p (snd P) 0 then Infinity
      else finish (fdiv p (fadd p (fmul p 3 (fpow p (fst P) 2)) (c_a c)) (fmul p 2 (snd P)))
    else if feq p (fst P) (fst Q) then Infinity
    else finish (fdiv p (fsub p (snd P) (snd Q)) (fsub p (fst P) (fst Q))).

(** :540-541 neg, :512-513 sub *)
Definition ec_neg (c : curve) (P : point) : point := (fst P, fneg_ (c_p c) (snd P)).
Definition ec_sub (c : curve) (P Q : point) : point := ec_add c P (ec_neg c Q).

(** :516-528 mul.  The first test uses the integer scalar; `scalar /= 2` makes it a float,
    which is halved until it underflows to zero.  `if bit:` is true for any nonzero
    remainder, in particular for every fraction.  [f_even] says that x % 2 is zero. *)
Definition f_even (x : pyfloat) : bool :=
  match x with
  | S754_zero _ => true
  | S754_finite _ m e => if 0 <? e then true else if e <? - (Z.pos (Pos.size m)) then false else Z.pos m mod 2 ^ (1 - e) =? 0
  | _ => false
  end.
Definition f_half (x : pyfloat) : pyfloat := SFdiv fprec femax x (S754_finite false 4503599627370496 (-51)).
Fixpoint mul_loop_float (fuel : nat) (c : curve) (acc shifter : point) (scalar : pyfloat) : point :=
  match fuel with
  | O => acc
  | S k =>
      if negb (ftruthy scalar) then acc
      else
        let acc := if f_even scalar then acc else ec_add c acc shifter in
        mul_loop_float k c acc (ec_add c shifter shifter) (f_half scalar)
  end.
(** a nonzero float is halved to zero in fewer than 2200 steps *)
Definition ec_mul (c : curve) (pt : point) (scalar : farg) : res point :=
  do scalar <- integer scalar;
  if scalar =? 0 then Ok Infinity
  else
    let acc := if scalar mod 2 =? 0 then Infinity else ec_add c Infinity pt in
    do s <- int_truediv scalar 2;
    Ok (mul_loop_float 2200 c acc (ec_add c pt pt) s).

(** :556-560 isoncurve *)
Definition curve_rhs (c : curve) (x : Z) : Z :=
  let p := c_p c in fadd p (fadd p (fpow p x 3) (fmul p (c_a c) x)) (c_b c).
Definition isoncurve (c : curve) (P : point) : bool :=
  iszero P || feq (c_p c) (fpow (c_p c) (snd P) 2) (curve_rhs c (fst P)).

(** :384-416 __lt__, __gt__, __le__, __ge__ *)
Definition pt_lt (c : curve) (self other : point) : bool :=
  if point_eq c other self then false
  else if fst self <? fst other then true
  else if fst self >? fst other then false
  else if fst self =? fst other then false
  else snd self <? snd other.
Definition pt_gt (c : curve) (self other : point) : bool :=
  if point_eq c other self then false
  else if fst self >? fst other then true
  else if fst self <? fst other then false
  else if fst self =? fst other then false
  else snd self >? snd other.
Definition pt_le (c : curve) (self other : point) : bool :=
  if point_eq c other self then true else pt_lt c self other.
Definition pt_ge (c : curve) (self other : point) : bool :=
  if point_eq c other self then true else pt_gt c self other.

(** :434-438 Size *)
Definition pt_Size (c : curve) (P : point) : Z := if IsInfinity c P then 1 else 33.

(** :440-462 encode_point.  [e] is the endian argument ('little' by default). *)
Definition encode_point (c : curve) (P : point) (compressed : bool) (e : endian) : res bytes :=
  if IsInfinity c P then Ok [x00]
  else
    do xb <- int_to_bytes e false 32 (fst P);
    let xbytes := rev xb in
    if compressed then
      let byteone := if snd P mod 2 =? 0 then x02 else x03 in
      Ok (hexlify (byteone :: xbytes))
    else
      do yb <- int_to_bytes e false 32 (snd P);
      let ybytes := rev yb in
      Ok (hexlify (x04 :: xbytes ++ ybytes)).
(** :464-465 ToString, :467-468 ToBytes (the same characters) *)
Definition pt_ToString (c : curve) (P : point) : res pystr := do b <- encode_point c P true LE; Ok (hex b).

(** :470-475 Serialize.  encode_point returns bytes except for infinity. *)
Definition pt_Serialize (c : curve) (P : point) (compress : bool) : io unit :=
  if IsInfinity c P then WriteByte (VBytes [x00])
  else byt <-- ilift (encode_point c P compress LE) ; WriteBytes (VBytes byt) true ;; iret tt.

(** :562-570 decompress: through the floating-point sqrt *)
Definition decompress (c : curve) (x flag : Z) : res point :=
  do y <- fsqrt (c_p c) (curve_rhs c x) flag; Ok (x, y).

(** :648-670 decompress_from_curve: None % 2 raises TypeError *)
Definition decompress_from_curve (c : curve) (x flag : Z) : res point :=
  let cq := c_p c in
  match sqrtCQ (curve_rhs c x) cq with
  | None => Raise TypeError
  | Some ysquare_root =>
      let bit0 := if ysquare_root mod 2 =? 0 then 0 else 1 in
      let beta := if bit0 =? flag then ysquare_root else (cq - ysquare_root) mod cq in
      Ok (x, beta)
  end.

(** data.reverse(); data.append(0); int.from_bytes(data, 'little') *)
Definition coord (data : bytes) : Z := le2z (rev data ++ [x00]).

(** :572-592 decode_from_reader *)
Definition decode_from_reader (c : curve) : io point :=
  f <-- ReadByte ;
  if f =? 0 then iret Infinity
  else if (f =? 2) || (f =? 3) then
    data <-- ReadBytes 32 ;
    ilift (decompress_from_curve c (coord data) (Z.land f 1))
  else if (f =? 4) || (f =? 6) || (f =? 7) then iraise NotImplementedError
  else iraise PlainException.

(** :594-646 decode_from_hex, on the bytes left after the optional unhexlify *)
Definition decode_ba (c : curve) (ba : bytes) : res point :=
  do n <- int_div (bit_length (c_p c) + 7) 8;
  match ba with
  | [] => Raise IndexError
  | fb :: rest =>
      let f := b2z fb in
      if f =? 0 then Ok Infinity
      else if (f =? 2) || (f =? 3) then
        if negb (zlen ba =? n + 1) then Raise PlainException
        else decompress_from_curve c (coord rest) (Z.land f 1)
      else if f =? 4 then
        if negb (zlen ba =? 2 * n + 1) then Raise PlainException
        else
          let k := Z.to_nat n in
          Ok (coord (firstn k rest), coord (skipn k rest))
      else if (f =? 6) || (f =? 7) then Raise NotImplementedError
      else Raise PlainException
  end.
Definition decode_from_hex (c : curve) (hex_str : pyval) (unhex : bool) : res point :=
  if unhex then do ba <- unhexlify hex_str; decode_ba c ba
  else match hex_str with
       | VBytes b | VBytearray b => decode_ba c b
       | VStr [] => Raise IndexError
       | VStr _ => Raise PlainException     (* f is a character: no branch matches *)
       | _ => Raise TypeError
       end.

(** ** ECDSA (ECCurve.py:673-882) *)

(** the curve constants written in secp256r1, decode_secp256r1, Deserialize_Secp256r1,
    SignSecp256R1 (:809-810, :822-824, :838-840, :875-876) *)
Definition p256 : Z := 0xFFFFFFFF00000001000000000000000000000000FFFFFFFFFFFFFFFFFFFFFFFF.
Definition secp256r1 : curve :=
  mkCurve p256
    115792089210356248762697446949407573530086143415290314195533631308867097853948
    41058363725152142129326129780047268409114441015993725554835256314039467401291.
(** :813 *)
Definition G256 : point :=
  (0x6B17D1F2E12C4247F8BCE6E563A440F277037D812DEB33A0F4A13945D898C296,
   0x4FE342E2FE1A7F9B8EE7EB4A7C0F9E162BCE33576B315ECECBB6406837BF51F5).
(** :868-870 *)
Definition secp256k1 : curve := mkCurve (2 ^ 256 - 2 ^ 32 - 977) 0 7.
Definition G256k1 : point :=
  (0x79BE667EF9DCBBAC55A06295CE870B07029BFCDB2DCE28D959F2815B16F81798,
   0x483ADA7726A3C4655DA4FBFC0E1108A8FD17B448A68554199C47D08FFB10D4B8).
Definition n256k1 : Z := 2 ^ 256 - 432420386565659656852420866394968145599.

(** :817-834 decode_secp256r1: the ECDSA object it returns holds the point as G *)
Definition decode_secp256r1 (s : pyval) (unhex check_on_curve : bool) : res point :=
  do pt <- decode_from_hex secp256r1 s unhex;
  if check_on_curve then (if isoncurve secp256r1 pt then Ok pt else Raise PlainException) else Ok pt.

(** :837-842 *)
Definition Deserialize_Secp256r1 : io point := decode_from_reader secp256r1.

(** :845-861 FromBytes_Secp256r1; None for other lengths.  bytearray(b'04').hex() is the
    str '3034', which can only be joined to another str. *)
Definition FromBytes_Secp256r1 (pubkey : pyval) : res (option point) :=
  do length <- py_len pubkey;
  if (length =? 33) || (length =? 65) then rmap Some (decode_secp256r1 pubkey true true)
  else if (length =? 64) || (length =? 72) then
    let skip := length - 64 in
    match pubkey with
    | VStr s => rmap Some (decode_secp256r1 (VStr (str "3034" ++ skipn (Z.to_nat skip) s)) true true)
    | _ => Raise TypeError
    end
  else if (length =? 96) || (length =? 104) then
    let skip := Z.to_nat (length - 96) in
    match pubkey with
    | VBytes b | VBytearray b => rmap Some (decode_secp256r1 (VBytearray (x04 :: slice skip (skip + 64) b)) false false)
    | _ => Raise TypeError
    end
  else Ok None.

(** x - y of two arguments: plain integers are subtracted as such, a Value reduces
    (:207-208, :223-224); text minus text (or a plain integer) is a TypeError *)
Definition arg_sub (n : Z) (x y : farg) : res farg :=
  match x, y with
  | AInt a, AInt b => Ok (AInt (a - b))
  | AVal a, _ => do b <- integer y; Ok (AVal (fsub n a b))
  | _, AVal b => do a <- integer x; Ok (AVal (fsub n a b))
  | _, _ => Raise TypeError
  end.
(** :793-802 crack1 *)
Definition crack1 (n : Z) (rnum snum message signsecret : farg) : res Z :=
  do m <- integer message;
  do r <- integer rnum;
  do s <- integer snum;
  do k <- integer signsecret;
  Ok (fdiv n (fsub n (fmul n s k) m) r).
(** :770-791 crack2 *)
Definition crack2 (n : Z) (r s1 s2 m1 m2 : farg) : res (Z * Z) :=
  do d <- arg_sub n s1 s2; do sdelta <- integer d;
  do d' <- arg_sub n m1 m2; do mdelta <- integer d';
  let secret := fdiv n mdelta sdelta in
  do x1 <- crack1 n r s1 m1 (AVal secret);
  do x2 <- crack1 n r s2 m2 (AVal secret);
  Ok (secret, x1).
(** the n handed to ECDSA.__init__ (:678-681): a number, or -- by secp256r1 (:812-814) and
    SignSecp256R1 (:878) -- the FiniteField object itself; int % FiniteField is a TypeError *)
Inductive order := OInt (n : Z) | OField.
Record ecdsa := mkECDSA { e_curve : curve; e_G : point; e_n : order }.
(** :804-814 secp256r1(), :863-870 secp256k1() *)
Definition ECDSA_secp256r1 : ecdsa := mkECDSA secp256r1 G256 OField.
Definition ECDSA_secp256k1 : ecdsa := mkECDSA secp256k1 G256k1 (OInt n256k1).
(** :687-692 calcpub *)
Definition calcpub (E : ecdsa) (privkey : farg) : res point :=
  do x <- integer privkey; ec_mul (e_curve E) (e_G E) (AVal x).
(** :694-709 sign (for n > 0 when n is a number).  The first reduction modulo n is in x * r. *)
Definition ecdsa_sign (E : ecdsa) (message privkey secret : farg) : res (Z * Z) :=
  do m <- integer message;
  do x <- integer privkey;
  do k <- integer secret;
  do R <- ec_mul (e_curve E) (e_G E) (AVal k);
  let r := fst R in
  match e_n E with
  | OField => Raise TypeError
  | OInt n => Ok (r, fdiv n (fadd n m (fmul n x r)) k)
  end.
(** :711-740 verify *)
Definition ecdsa_verify (E : ecdsa) (message : farg) (pubkey : point) (rnum snum : farg) : res bool :=
  do m <- integer message;
  do r <- integer rnum;
  do s <- integer snum;
  match e_n E with
  | OField => Raise TypeError
  | OInt n =>
      do A <- ec_mul (e_curve E) (e_G E) (AVal (fdiv n m s));
      do B <- ec_mul (e_curve E) pubkey (AVal (fdiv n r s));
      Ok (feq (c_p (e_curve E)) (fst (ec_add (e_curve E) A B)) r)
  end.
(** :742-755 findpk *)
Definition findpk (E : ecdsa) (message rnum snum : farg) (flag : Z) : res point :=
  do m <- integer message;
  do r <- integer rnum;
  do s <- integer snum;
  do R <- decompress (e_curve E) r flag;
  match e_n E with
  | OField => Raise TypeError
  | OInt n =>
      do A <- ec_mul (e_curve E) R (AVal (fdiv n s r));
      do B <- ec_mul (e_curve E) (e_G E) (AVal (fdiv n m r));
      Ok (ec_sub (e_curve E) A B)
  end.
(** :530-535 div: P * (1/a).  An int / Value is a TypeError (Value defines __rdiv__, which
    Python 3 never calls, and not __rtruediv__); for a plain number 1/a is a float, which
    field.integer (:322-330) passes on to the loop of mul. *)
Definition ec_div (c : curve) (pt : point) (scalar : farg) : res point :=
  match scalar with
  | AInt a => do s <- int_truediv 1 a; Ok (mul_loop_float 2200 c Infinity pt s)
  | _ => Raise TypeError
  end.
(** :757-768 findpk2: 1/rdiff is an int divided by a Value *)
Definition findpk2 (E : ecdsa) (r1 s1 r2 s2 : farg) (flag1 flag2 : Z) : res point :=
  do x1 <- integer r1; do R1 <- decompress (e_curve E) x1 flag1;
  do x2 <- integer r2; do R2 <- decompress (e_curve E) x2 flag2;
  do d <- match e_n E, r1, r2 with
          | OInt n, _, _ => arg_sub n r1 r2
          | OField, AInt a, AInt b => Ok (AInt (a - b))
          | OField, _, _ => Raise TypeError
          end;
  do _ <- integer d;
  do A <- ec_mul (e_curve E) R1 s1;
  do B <- ec_mul (e_curve E) R2 s2;
  Raise TypeError.
(** :872-882 SignSecp256R1 calls sign without its third argument *)
Definition SignSecp256R1 (message prikey : farg) (pubkey : point) : res (Z * Z) := Raise TypeError.
