(** * M_Bitcoin: the functions of the packages `bitcoin` and `ecdsa` that neocore calls

    requirements.txt:2-3 pins bitcoin==1.1.42 and ecdsa==0.13.  Their sources are not in /repo;
    this file follows the released code of those versions (bitcoin/main.py,
    ecdsa/numbertheory.py, ecdsa/ellipticcurve.py, ecdsa/ecdsa.py, ecdsa/keys.py) function by
    function, and is part of the trusted base.  The rest of the model (M_KeyPair, M_Crypto)
    takes these functions as oracles; C99-C101 put them in. *)
From Coq Require Import String.
From Verif Require Import M_Py M_Hash M_Float M_ECCurve M_KeyPair M_Crypto.

(** ** bitcoin/main.py *)

(** inv(a, n): `while low > 1`, on explicit fuel (it never runs out, see L_Bitcoin) *)
Fixpoint inv_loop (fuel : nat) (lm hm low high : Z) : Z :=
  match fuel with
  | O => lm
  | S k =>
      if low >? 1 then
        let r := high / low in
        inv_loop k (hm - lm * r) lm (high - low * r) low
      else lm
  end.
Definition inv (a n : Z) : Z :=
  if a =? 0 then 0 else inv_loop (Z.to_nat (2 * bit_length n) + 2) 1 0 (a mod n) n mod n.

(** a triple (X, Y, Z) of Jacobian coordinates *)
Definition jacobian : Type := Z * Z * Z.
(** to_jacobian(p) *)
Definition to_jacobian (p : point) : jacobian := (fst p, snd p, 1).
(** jacobian_double(p); A and P are the module variables set by change_curve *)
Definition jacobian_double (c : curve_params) (p : jacobian) : jacobian :=
  let '(p0, p1, p2) := p in let P := cp_p c in
  if p1 =? 0 then (0, 0, 0)
  else
    let ysq := p1 ^ 2 mod P in
    let S := 4 * p0 * ysq mod P in
    let M := (3 * p0 ^ 2 + cp_a c * p2 ^ 4) mod P in
    let nx := (M ^ 2 - 2 * S) mod P in
    let ny := (M * (S - nx) - 8 * ysq ^ 2) mod P in
    let nz := 2 * p1 * p2 mod P in
    (nx, ny, nz).
(** jacobian_add(p, q) *)
Definition jacobian_add (c : curve_params) (p q : jacobian) : jacobian :=
  let '(p0, p1, p2) := p in let '(q0, q1, q2) := q in let P := cp_p c in
  if p1 =? 0 then q
  else if q1 =? 0 then p
  else
    let U1 := p0 * q2 ^ 2 mod P in
    let U2 := q0 * p2 ^ 2 mod P in
    let S1 := p1 * q2 ^ 3 mod P in
    let S2 := q1 * p2 ^ 3 mod P in
    if U1 =? U2 then
      if negb (S1 =? S2) then (0, 0, 1) else jacobian_double c p
    else
      let H := U2 - U1 in
      let R := S2 - S1 in
      let H2 := H * H mod P in
      let H3 := H * H2 mod P in
      let U1H2 := U1 * H2 mod P in
      let nx := (R ^ 2 - H3 - 2 * U1H2) mod P in
      let ny := (R * (U1H2 - nx) - S1 * H3) mod P in
      let nz := H * p2 * q2 mod P in
      (nx, ny, nz).
(** from_jacobian(p) *)
Definition from_jacobian (c : curve_params) (p : jacobian) : point :=
  let '(p0, p1, p2) := p in let P := cp_p c in
  let z := inv p2 P in
  (p0 * z ^ 2 mod P, p1 * z ^ 3 mod P).
(** jacobian_multiply(a, n): the recursion on n // 2, which is the recursion on the binary
    digits of n; an n below 0 or not below N is first reduced modulo N *)
Fixpoint jacobian_multiply_pos (c : curve_params) (a : jacobian) (n : positive) : jacobian :=
  match n with
  | xH => a
  | xO m => jacobian_double c (jacobian_multiply_pos c a m)
  | xI m => jacobian_add c (jacobian_double c (jacobian_multiply_pos c a m)) a
  end.
Definition jacobian_multiply (c : curve_params) (a : jacobian) (n : Z) : jacobian :=
  let '(a0, a1, a2) := a in
  if (a1 =? 0) || (n =? 0) then (0, 0, 1)
  else if n =? 1 then a
  else
    let n := if (n <? 0) || (n >=? cp_n c) then n mod cp_n c else n in
    match n with
    | Zpos k => jacobian_multiply_pos c a k
    | _ => (0, 0, 1)
    end.
(** fast_multiply(a, n) *)
Definition fast_multiply (c : curve_params) (a : point) (n : Z) : point :=
  from_jacobian c (jacobian_multiply c (to_jacobian a) n).
Definition cp_G (c : curve_params) : point := (cp_gx c, cp_gy c).

(** encode(val, 256, 32): big-endian, at least 32 bytes; a negative number gives zeros *)
Definition encode256 (val : Z) : bytes :=
  let val := Z.max 0 val in z2bytes BE (Z.to_nat (Z.max 32 ((bit_length val + 7) / 8))) val.
(** decode(string, 16): a character that is no hexadecimal digit counts -1 (str.find) *)
Definition hex_digit (ch : Z) : Z :=
  if (48 <=? ch) && (ch <=? 57) then ch - 48
  else if (97 <=? ch) && (ch <=? 102) then ch - 87
  else if (65 <=? ch) && (ch <=? 70) then ch - 55
  else -1.
Definition decode16 (s : list Z) : Z := fold_left (fun r ch => r * 16 + hex_digit ch) s 0.

(** the formats get_privkey_format tells apart; [FWif]: Base58Check text *)
Inductive priv_format := FDecimal | FBin | FBinCompressed | FHex | FHexCompressed | FWif | FWifCompressed.
(** get_privkey_format(priv) and decode_privkey(priv): the number, and the format.
    [wif] is b58check_to_bin of the same package, which is not modelled.  A str of 32 or 33
    characters is read by bytearray.fromhex (here: unhexlify, which does not skip blanks). *)
Definition decode_privkey (wif : pyval -> res bytes) (priv : pyval) : res (Z * priv_format) :=
  match as_int priv with
  | Some z => Ok (z, FDecimal)
  | None =>
      do n <- py_len priv;
      let bin (k : nat) := match priv with
        | VBytes b | VBytearray b => Ok (bytes2z BE (firstn k b))
        | VStr s => match unhexlify (VStr (firstn k s)) with Ok b => Ok (bytes2z BE b) | Raise _ => Raise ValueError end
        | _ => Raise TypeError end in
      let text (k : nat) := match priv with
        | VBytes b | VBytearray b => Ok (decode16 (firstn k (map b2z b)))
        | VStr s => Ok (decode16 (firstn k s))
        | _ => Raise TypeError end in
      if n =? 32 then do z <- bin 32%nat; Ok (z, FBin)
      else if n =? 33 then do z <- bin 32%nat; Ok (z, FBinCompressed)
      else if n =? 64 then do z <- text 64%nat; Ok (z, FHex)
      else if n =? 66 then do z <- text 64%nat; Ok (z, FHexCompressed)
      else
        do b <- wif priv;
        if zlen b =? 32 then Ok (bytes2z BE b, FWif)
        else if zlen b =? 33 then Ok (bytes2z BE (firstn 32 b), FWifCompressed)
        else Raise PlainException
  end.
Definition is_compressed (f : priv_format) : bool :=
  match f with FBinCompressed | FHexCompressed | FWifCompressed => true | _ => false end.

(** privkey_to_pubkey(priv) for 32 bytes (KeyPair.py:63): format 'bin' *)
Definition bitcoin_privkey_to_pubkey (c : curve_params) (priv : bytes) : res bytes :=
  let d := bytes2z BE priv in
  if d >=? cp_n c then Raise PlainException
  else
    let '(x, y) := fast_multiply c (cp_G c) d in
    Ok (x04 :: z2bytes BE 32 x ++ z2bytes BE 32 y).

(** hmac.new(key, msg, hashlib.sha256).digest() for a key of at most 64 bytes (RFC 2104) *)
Definition hmac_sha256 (H : hashes) (key msg : bytes) : bytes :=
  let key := key ++ repeat x00 (64 - length key) in
  let pad (v : Z) := map (fun b => z2b (Z.lxor (b2z b) v)) key in
  sha256 H (pad 92 ++ sha256 H (pad 54 ++ msg)).
(** deterministic_generate_k(msghash, priv); [z] = hash_to_int(msghash) *)
Definition deterministic_generate_k (H : hashes) (z d : Z) : Z :=
  let v := repeat x01 32 in
  let k := repeat x00 32 in
  let priv := encode256 d in
  let msghash := encode256 z in
  let k := hmac_sha256 H k (v ++ [x00] ++ priv ++ msghash) in
  let v := hmac_sha256 H k v in
  let k := hmac_sha256 H k (v ++ [x01] ++ priv ++ msghash) in
  let v := hmac_sha256 H k v in
  bytes2z BE (hmac_sha256 H k v).
(** ecdsa_raw_sign(msghash, priv); msghash is the hexadecimal text of the 32-byte digest,
    which hash_to_int reads as a number.  [nonce z d] is deterministic_generate_k. *)
Definition ecdsa_raw_sign (nonce : Z -> Z -> Z) (wif : pyval -> res bytes) (c : curve_params) (digest : bytes) (priv : pyval) : res (Z * Z * Z) :=
  let z := bytes2z BE digest in
  do df <- decode_privkey wif priv;
  let '(d, f) := df in
  let k := nonce z d in
  let '(r, y) := fast_multiply c (cp_G c) k in
  let s := inv k (cp_n c) * (z + r * d) mod cp_n c in
  let v := 27 + Z.lxor (y mod 2) (if s * 2 <? cp_n c then 0 else 1) in
  let s := if s * 2 <? cp_n c then s else cp_n c - s in
  let v := if is_compressed f then v + 4 else v in
  Ok (v, r, s).

(** ** ecdsa/numbertheory.py *)

(** inverse_mod(a, m): `while c != 0`, on explicit fuel; the assertion d == 1 *)
Fixpoint inverse_mod_loop (fuel : nat) (c d uc ud : Z) : Z * Z :=
  match fuel with
  | O => (d, ud)
  | S k => if c =? 0 then (d, ud) else inverse_mod_loop k (d mod c) c (ud - (d / c) * uc) uc
  end.
Definition inverse_mod (a m : Z) : res Z :=
  let a := if (a <? 0) || (m <=? a) then a mod m else a in
  let '(d, ud) := inverse_mod_loop (Z.to_nat (2 * bit_length m) + 2) a m 1 0 in
  if d =? 1 then Ok (if ud >? 0 then ud else ud + m) else Raise AssertionError.

(** ** ecdsa/ellipticcurve.py *)

(** CurveFp(p, a, b) *)
Record curve_fp := mkCurveFp { f_p : Z; f_a : Z; f_b : Z }.
(** a Point of one curve; None is INFINITY *)
Definition epoint : Type := option (Z * Z).
(** CurveFp.contains_point *)
Definition contains_point (c : curve_fp) (x y : Z) : bool :=
  (y * y - (x * x * x + f_a c * x + f_b c)) mod f_p c =? 0.
(** Point(curve, x, y): the assertion of __init__ (the one about the order, self * order ==
    INFINITY, reduces order modulo itself and always holds) *)
Definition new_Point (c : curve_fp) (x y : Z) : res epoint :=
  if contains_point c x y then Ok (Some (x, y)) else Raise AssertionError.
(** Point.double *)
Definition e_double (c : curve_fp) (P : epoint) : res epoint :=
  match P with
  | None => Ok None
  | Some (x, y) =>
      do i <- inverse_mod (2 * y) (f_p c);
      let l := (3 * x * x + f_a c) * i mod f_p c in
      let x3 := (l * l - 2 * x) mod f_p c in
      let y3 := (l * (x - x3) - y) mod f_p c in
      new_Point c x3 y3
  end.
(** Point.__add__ *)
Definition e_add (c : curve_fp) (P Q : epoint) : res epoint :=
  match P, Q with
  | _, None => Ok P
  | None, _ => Ok Q
  | Some (x1, y1), Some (x2, y2) =>
      if x1 =? x2 then
        if (y1 + y2) mod f_p c =? 0 then Ok None else e_double c P
      else
        do i <- inverse_mod (x2 - x1) (f_p c);
        let l := (y2 - y1) * i mod f_p c in
        let x3 := (l * l - x1 - x2) mod f_p c in
        let y3 := (l * (x1 - x3) - y1) mod f_p c in
        new_Point c x3 y3
  end.
(** the loop of Point.__mul__: i runs through the powers of two 2^j, ..., 4, 2 *)
Fixpoint e_mul_loop (c : curve_fp) (self negative_self : epoint) (e3 e : Z) (j : nat) (result : epoint) : res epoint :=
  match j with
  | O => Ok result
  | S j' =>
      let i := Z.of_nat j in
      do result <- e_double c result;
      do result <- (if Z.testbit e3 i && negb (Z.testbit e i) then e_add c result self else Ok result);
      do result <- (if negb (Z.testbit e3 i) && Z.testbit e i then e_add c result negative_self else Ok result);
      e_mul_loop c self negative_self e3 e j' result
  end.
(** Point.__mul__; [order] is the point's order, None if it was made without one.
    leftmost_bit(3e) // 2 is 2 ^ (log2 (3e) - 1). *)
Definition e_mul (c : curve_fp) (P : epoint) (order : option Z) (e : Z) : res epoint :=
  let e := match order with Some n => e mod n | None => e end in
  if e =? 0 then Ok None
  else match P with
  | None => Ok None
  | Some (x, y) =>
      if e >? 0 then
        let e3 := 3 * e in
        do negative_self <- new_Point c x (- y);
        e_mul_loop c P negative_self e3 e (Z.to_nat (Z.log2 e3 - 1)) P
      else Raise AssertionError
  end.

(** ** ecdsa/ecdsa.py: NIST P-256 and signature verification *)

Definition nist256 : curve_fp := mkCurveFp
  115792089210356248762697446949407573530086143415290314195533631308867097853951
  (-3)
  0x5ac635d8aa3a93e7b3ebbd55769886bc651d06b0cc53b0f63bce3c3e27d2604b.
Definition nist256_order : Z := 115792089210356248762697446949407573529996955224135760342422259061068512044369.
Definition nist256_generator : epoint := Some
  (0x6b17d1f2e12c4247f8bce6e563a440f277037d812deb33a0f4a13945d898c296,
   0x4fe342e2fe1a7f9b8ee7eb4a7c0f9e162bce33576b315ececbb6406837bf51f5).
(** point_is_valid(generator, x, y): note that the coordinates are compared with the order *)
Definition point_is_valid (x y : Z) : res bool :=
  let n := nist256_order in
  if (x <? 0) || (n <=? x) || (y <? 0) || (n <=? y) then Ok false
  else if negb (contains_point nist256 x y) then Ok false
  else
    do P <- new_Point nist256 x y;
    do R <- e_mul nist256 P None n;
    Ok (match R with None => true | Some _ => false end).
(** Public_key.verifies(hash, signature): `xy.x() % n` of INFINITY is None % n, a TypeError *)
Definition verifies (Q : epoint) (hash r s : Z) : res bool :=
  let n := nist256_order in
  if (r <? 1) || (r >? n - 1) then Ok false
  else if (s <? 1) || (s >? n - 1) then Ok false
  else
    do c <- inverse_mod s n;
    let u1 := hash * c mod n in
    let u2 := r * c mod n in
    do A <- e_mul nist256 nist256_generator (Some n) u1;
    do B <- e_mul nist256 Q (Some n) u2;
    do xy <- e_add nist256 A B;
    match xy with
    | None => Raise TypeError
    | Some (x, _) => Ok (x mod n =? r)
    end.
(** ecdsa/keys.py: VerifyingKey.from_string(key, NIST256p, sha256).verify(signature, message,
    sha256).  string_to_number is the big-endian number.  Public_key.__init__ checks once more
    that n * point is INFINITY (with the order set: trivially) and the range of the
    coordinates, which point_is_valid has checked.  A signature that is well formed and not
    genuine raises BadSignatureError. *)
Definition ecdsa_verify (H : hashes) (key signature message : bytes) : res bool :=
  if negb (zlen key =? 64) then Raise AssertionError
  else
    let x := bytes2z BE (firstn 32 key) in
    let y := bytes2z BE (skipn 32 key) in
    do valid <- point_is_valid x y;
    if negb valid then Raise AssertionError
    else
      do Q <- new_Point nist256 x y;
      let number := bytes2z BE (sha256 H message) in
      if negb (zlen signature =? 64) then Raise AssertionError
      else
        let r := bytes2z BE (firstn 32 signature) in
        let s := bytes2z BE (skipn 32 signature) in
        do ok <- verifies Q number r s;
        if ok then Ok true else Raise PlainException.

(** ** the oracles of M_KeyPair and M_Crypto with these functions put in *)

Definition real_keys (L : keylib) : keylib :=
  mkKeylib bitcoin_privkey_to_pubkey (scrypt_hash L) (aes_encrypt L) (aes_decrypt L) (nfc L).
Definition real_sigs (H : hashes) (wif : pyval -> res bytes) : siglib :=
  mkSiglib (ecdsa_raw_sign (deterministic_generate_k H) wif) (ecdsa_verify H).
