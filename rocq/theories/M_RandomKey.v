(** * M_RandomKey: neocore/Cryptography/Helper.py random_key

    What the operating system, the random module and the clock deliver is an input: [urandom] is the
    result of os.urandom(32), [number] that of random.randrange(2 ** 256) and [clock] that of
    time.time(), a float. *)
From Coq Require Import String Floats.SpecFloat.
From Verif Require Import M_Py M_Float M_Hash M_Cli M_Fixed8Big.

(** the int 1000000 as a float, as float * int converts it *)
Definition F_MICRO : pyfloat := S754_finite false 8589934592000000 (-33).
(** Helper.py:22 str(os.urandom(32)) + str(random.randrange(2 ** 256)) + str(int(time.time() * 1000000)) *)
Definition entropy (urandom : bytes) (number : Z) (clock : pyfloat) : res pystr :=
  do t <- py_int (fmul clock F_MICRO);
  Ok (bytes_repr urandom ++ int_text number ++ int_text t).
(** Helper.py:20-25 random_key *)
Definition random_key (H : hashes) (urandom : bytes) (number : Z) (clock : pyfloat) : res bytes :=
  do e <- entropy urandom number clock;
  do binary_data <- utf8_encode e;
  let x := sha256 H binary_data in
  Ok (hexlify x).
