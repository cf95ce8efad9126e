(** * M_Crypto: neocore/Cryptography/Crypto.py, and the state it shares with KeyPair.py

    The `bitcoin` package keeps one curve in module variables; bitcoin.change_curve replaces
    it for the whole process.  [world] is that curve together with Crypto._Instance.
    ecdsa_raw_sign (bitcoin 1.1.42) and VerifyingKey.from_string/verify (ecdsa 0.13) are
    oracles; bitcoin.decompress is modelled, because the repository's own calls decide under
    which curve it runs. *)
From Coq Require Import String.
From Verif Require Import M_Py M_Hash M_Base58 M_UInt M_Helper M_ECCurve M_KeyPair.

(** [w_instance]: Crypto._Instance is not None (Crypto.py:11) *)
Record world := mkWorld { w_curve : curve_params; w_instance : bool }.
(** the curve the `bitcoin` package starts with (secp256k1, bitcoin/main.py) *)
Definition bitcoin_default : curve_params := mkParams
  (2 ^ 256 - 2 ^ 32 - 977)
  115792089237316195423570985008687907852837564279074904382605163141518161494337
  0 7
  55066263022277343669578718895168534326250603453777594175500187360389116729240
  32670510020758816978083085130507043184471273380659243275938904335757337482424.
(** after `import neocore` nothing has been called yet: both change_curve calls are inside functions *)
Definition fresh : world := mkWorld bitcoin_default false.

Definition W (A : Type) : Type := world -> res A * world.
Definition wpure {A} (r : res A) : W A := fun w => (r, w).
Definition wbind {A B} (m : W A) (f : A -> W B) : W B := fun w =>
  match m w with (Ok a, w') => f a w' | (Raise e, w') => (Raise e, w') end.
Notation "x <~ m ; f" := (wbind m (fun x => f)) (at level 100, m at next level, f at level 200, right associativity).

(** bitcoin.change_curve(p, n, a, b, gx, gy): replaces the module variables *)
Definition change_curve (c : curve_params) : W unit := fun w => (Ok tt, mkWorld c (w_instance w)).
(** Crypto.py:27-37 Default and :173-174 CryptoInstance.__init__ *)
Definition wDefault : W unit := fun w =>
  if w_instance w then (Ok tt, w) else (Ok tt, mkWorld SetupSignatureCurve true).
(** KeyPair.py:42-78 KeyPair(priv_key): setup_curve() at :49 comes before every check *)
Definition wKeyPair (H : hashes) (L : keylib) (priv_key : pyval) : W keypair :=
  _ <~ change_curve setup_curve; wpure (new_KeyPair H L priv_key).
(** KeyPair.py:171-187 Export: Crypto.Default() at :183 *)
Definition wExport (H : hashes) (kp : keypair) : W pystr := _ <~ wDefault; wpure (Ok (Export H kp)).
(** KeyPair.py:108-157 PrivateKeyFromNEP2: the candidate key is made into a KeyPair at :149 *)
Definition wPrivateKeyFromNEP2 (H : hashes) (L : keylib) (rs : bool) (nep2_key : pyval) (passphrase : pystr) : W bytes :=
  private_key <~ wpure (
    if negb (truthy nep2_key) then do _ <- py_len nep2_key; Raise ValueError
    else
      do n <- py_len nep2_key;
      if negb (n =? 58) then Raise ValueError
      else
        do decoded_key <- match b58decode_check H rs nep2_key with Ok b => Ok b | Raise _ => Raise ValueError end;
        let ah := slice 3 7 decoded_key in
        do pwd_normalized <- utf8_encode (nfc L passphrase);
        let derived := scrypt_hash L pwd_normalized ah in
        do decrypted <- aes_decrypt L (skipn 32 derived) (last_n 32 decoded_key);
        do private_key <- xor_bytes (VBytes decrypted) (VBytes (firstn 32 derived));
        Ok (private_key, ah));
  kp_new <~ wKeyPair H L (VBytes (fst private_key));
  wpure (do kp_new_address <- GetAddress H kp_new;
         do kp_new_address_hash <- address_hash H kp_new_address;
         if list_eq_dec Byte.byte_eq_dec kp_new_address_hash (snd private_key) then Ok (fst private_key) else Raise ValueError).

Record siglib := mkSiglib {
  (** bitcoin.ecdsa_raw_sign(hash as hex, private_key) under the installed curve: (v, r, s) *)
  raw_sign : curve_params -> bytes -> pyval -> res (Z * Z * Z);
  (** VerifyingKey.from_string(key, NIST256p, sha256).verify(signature, message, sha256) *)
  nist_verify : bytes -> bytes -> bytes -> res bool
}.

(** Crypto.py:106-127 Sign.  `bytearray(r.to_bytes(32,'big'))` *)
Definition wSign (H : hashes) (S : siglib) (message private_key : pyval) : W bytes := fun w =>
  (do m <- unhexlify message;
   do vrs <- raw_sign S (w_curve w) (sha256 H m) private_key;
   let '(_, r, s) := vrs in
   do rb <- int_to_bytes BE false 32 r;
   do sb <- int_to_bytes BE false 32 s;
   Ok (rb ++ sb), w).

(** bitcoin.decompress(pub) for 33 bytes: get_pubkey_format raises unless the first byte is 2
    or 3; decode_pubkey computes y under the installed curve; encode_pubkey gives 04, x, y *)
Definition bitcoin_decompress (c : curve_params) (pub : bytes) : res bytes :=
  match pub with
  | f :: xb =>
      if (b2z f =? 2) || (b2z f =? 3) then
        let x := bytes2z BE xb in
        let beta := modpow (x * x * x + cp_a c * x + cp_b c) ((cp_p c + 1) / 4) (cp_p c) in
        let y := if (beta + b2z f) mod 2 =? 0 then beta else cp_p c - beta in
        Ok (x04 :: z2bytes BE 32 x ++ z2bytes BE 32 y)
      else Raise PlainException
  | [] => Raise PlainException
  end.

(** the public_key argument: an ECPoint with these coordinates, or bytes *)
Inductive key_arg := KPoint (P : point) | KBytes (b : bytes).
(** Crypto.py:129-168 VerifySignature.  hashlib refuses a str message with TypeError, which
    the last `except Exception` turns into False like every other error there. *)
Definition wVerifySignature (S : siglib) (message : pyval) (signature : bytes) (public_key : key_arg) (unhex : bool) : W bool := fun w =>
  (do key <- match public_key with
             | KPoint P =>
                 do pubkey_x <- int_to_bytes BE false 32 (fst P);
                 do pubkey_y <- int_to_bytes BE false 32 (snd P);
                 Ok (pubkey_x ++ pubkey_y)
             | KBytes b => Ok b
             end;
   do message <- (if unhex then match unhexlify message with Ok m => Ok (VBytes m) | Raise _ => Ok message end
                  else match message with VStr s => do b <- utf8_encode s; Ok (VBytes b) | v => Ok v end);
   do key <- (if zlen key =? 33 then do k <- bitcoin_decompress (w_curve w) key; Ok (skipn 1 k) else Ok key);
   match (do m <- match message with VBytes m | VBytearray m => Ok m | _ => Raise TypeError end;
          nist_verify S key signature m) with
   | Ok res => Ok res
   | Raise _ => Ok false
   end, w).

(** The calls of Crypto.py and KeyPair.py that touch the shared state; the instance methods of
    Crypto.Default() (Crypto.py:176-225) forward to the static ones.  What a call returns is
    dropped here: [after_call] is its effect on the state. *)
Inductive call :=
| CallKeyPair (priv_key : pyval)
| CallExport (kp : keypair)
| CallPrivateKeyFromNEP2 (nep2_key : pyval) (passphrase : pystr)
| CallDefault
| CallSign (message private_key : pyval)
| CallVerifySignature (message : pyval) (signature : bytes) (public_key : key_arg) (unhex : bool)
| CallDefaultSign (message private_key : pyval)
| CallDefaultVerifySignature (message : pyval) (signature : bytes) (public_key : key_arg) (unhex : bool).
Definition after_call (H : hashes) (L : keylib) (rs : bool) (S : siglib) (k : call) (w : world) : world :=
  match k with
  | CallKeyPair v => snd (wKeyPair H L v w)
  | CallExport kp => snd (wExport H kp w)
  | CallPrivateKeyFromNEP2 n p => snd (wPrivateKeyFromNEP2 H L rs n p w)
  | CallDefault => snd (wDefault w)
  | CallSign m k => snd (wSign H S m k w)
  | CallVerifySignature m s k u => snd (wVerifySignature S m s k u w)
  | CallDefaultSign m k => snd ((_ <~ wDefault; wSign H S m k) w)
  | CallDefaultVerifySignature m s k u => snd ((_ <~ wDefault; wVerifySignature S m s k u) w)
  end.
Definition after (H : hashes) (L : keylib) (rs : bool) (S : siglib) (history : list call) (w : world) : world :=
  fold_left (fun w k => after_call H L rs S k w) history w.
