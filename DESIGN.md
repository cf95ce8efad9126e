# DESIGN

Model of CityOfZion/neo-python-core (/repo, package `neocore`) in Coq 8.16.1.

## Plan per property

| id | property | model and proof plan |
|---|---|---|
| C01 | Fixed-width integers round-trip through the stream | struct pack/unpack as LE/BE base-256 codecs over `list byte`; induction on width. |
| C02 | Out-of-range integers are refused without touching the stream | range test of struct.pack as a boolean; both directions. |
| C03 | Fixed-width reads decode every byte string to the one value that encodes to it | bijection lemma between w-byte lists and ranges. |
| C04 | Variable-length integers are encoded in the protocol's shortest form | branch-by-branch WriteVarInt in a state+exception monad over BytesIO. |
| C05 | Variable-length integers round-trip within the reader's limit | composition of C04 with ReadVarInt. |
| C06 | ReadVarInt's verdict on every byte stream | case analysis over the first byte of an arbitrary stream. |
| C07 | The default endianness pairing is the only one that round-trips variable-length integers | LE decode of BE encode = byte reversal. |
| C08 | Length-prefixed byte strings round-trip | C05 plus BytesIO read of exactly the prefix. |
| C09 | Text strings round-trip through WriteVarString/ReadVarString | UTF-8 encoder/decoder over code points; decode(encode s)=s by per-character case split. |
| C10 | What a reader does when the announced data is missing | BytesIO.read returns min(n, remaining) bytes. |
| C11 | WriteBytes' hexadecimal guess is decided by content alone | binascii.unhexlify as a recursive function; characterised by an independent predicate 'even length, all hex digits'. |
| C12 | Writing a UInt160/UInt256 and reading it back | C11 applied to Serialize; iff statement. |
| C13 | Fixed-length strings occupy exactly the requested length and read back | C11 applied to WriteFixedString; rstrip model. |
| C14 | Hash lists round-trip | induction over the list. |
| C15 | ReadHashes does unbounded work on a tiny stream | induction over the count. |
| C16 | Write2000256List and Read2000256List are not inverse | by contradiction: last items read are empty or an unhexlify error occurred. |
| C17 | Arrays of serializable objects round-trip | class modelled as a record of constructor/Serialize/Deserialize; induction over the list. |
| C18 | A damaged array is silently cut at the first bad item | induction over the count against a prefix specification. |
| C19 | A message of mixed fields reads back field by field | deep embedding of field types; induction over the field list. |
| C20 | Reads never change the data and never move backwards | invariant by induction over a list of reader calls. |
| C21 | Writes at the end only append, even when they fail | invariant by induction over a list of writer calls. |
| C22 | Single bytes, chars and bools | direct. |
| C23 | Subclasses of int are silently dropped by WriteByte and short WriteVarInt | dynamic type tags on values (PyInt/PyBool/PyBig). |
| C24 | Reported byte counts of WriteVarInt/WriteVarBytes | direct from C04. |
| C25 | Fixed8 amounts round-trip through the stream | instance of C01/C02. |
| C26 | swap32 is an involution that reverses the four bytes | BE/LE codec reversal. |
| C27 | convert_to_uint160/uint256 give the low 20/32 bits as text | model of bin() and negative slicing; induction on width. |
| C28 | UInt construction enforces the size | direct, dynamic type tags. |
| C29 | UInt text form round-trips | hexlify/fromhex round trip. |
| C30 | ParseString accepts exactly well-formed hex | iff against an independent predicate on code points. |
| C31 | UInt ordering follows the numeric value except for the lowest byte | the index loop is shown equal to Z.compare of value/256. |
| C32 | Equality and hash of UInts agree | direct. |
| C33 | A UInt's identity survives any history unless its bytearray is mutated | heap of bytearrays with aliasing; invariant over histories + refutation witness. |
| C34 | Deserialize can break a UInt's size | BytesIO read length. |
| C35 | BigInteger signed bytes round-trip | two's complement codec, all of Z. |
| C36 | BigInteger default decoding is unsigned | same. |
| C37 | Length of BigInteger.ToByteArray | bit_length bounds. |
| C38 | BigInteger division and shifts | `M_BigInteger`: value and class of the result (BigInteger or int) through Python's operator dispatch; `C38_division`, `C38_shifts`, `C38_result_class`, `C38_same_errors`, `C38_values`, `C38_other_operands` |
| C39 | Fixed8 addition, subtraction, negation and ordering are exact | Z ring/order laws. |
| C40 | Fixed8 multiplication and division are not rescaled | Z laws. |
| C41 | Fixed8 true division is exact up to 2^53 | SpecFloat model of CPython's correctly rounded int/int; bound proved through Flocq's rounding theory. |
| C42 | Fixed8 Ceil, Floor and ToInt are exact up to 2^27 whole units | same. |
| C43 | Fixed8.FromDecimal | SpecFloat multiplication; decimal multiplication with 28-digit context and its exponent limit. |
| C44 | Fixed8.TryParse | model of float()/int() results as inputs; SpecFloat. |
| C45 | base256_encode is the little-endian representation | fuelled divmod loop; induction. |
| C46 | xor_bytes is an involution | pointwise lxor. |
| C47 | Base58 round-trips and is a bijection | base conversion lemmas in both directions. |
| C48 | Addresses round-trip and always look like NEO addresses | interval argument on 256^k vs 58^k for length and first letter. |
| C49 | What address_to_scripthash accepts | iff. |
| C50 | What isValidPublicAddress accepts | iff + interval argument for the version byte. |
| C51 | WIF export and import are inverse | C47 + interval argument for 52 characters. |
| C52 | NEP-2 export and import are inverse | C47 + interval; AES/scrypt/NFC as parameters with stated laws. |
| C53 | NEP-2 import only returns keys whose address matches | case analysis. |
| C54 | One key, one address, by every route | direct. |
| C55 | Merkle root is the pairwise double-SHA-256 fold | heap model of nodes refined to a functional fold. |
| C56 | Merkle tree shape | same heap model; invariants. |
| C57 | ToHashArray returns each leaf hash once | same. |
| C58 | Trim only looks at the first two flags | same. |
| C59 | Exactly which lists of hashes have the same Merkle root | binding by injectivity of the pairing step up to collisions; the exact form by filling lists up to a power of two and climbing rows (P_Merkle2.v). |
| C60 | Public key encoding round-trips | Pocklington primality proof of p256 (own proof), Fermat, square roots for p=3 mod 4. |
| C61 | Decoding a compressed key yields a curve point or raises | same. |
| C62 | Uncompressed keys are checked only on request | direct. |
| C63 | Finite field arithmetic | Z mod p with Bezout. |
| C64 | GCD satisfies Bezout and modinv inverts | well-founded recursion by fuel with a proved sufficient bound. |
| C65 | Point addition stays on the curve | polynomial identities modulo p. |
| C66 | Scalar multiplication is not repeated addition | the loop is shown to be a fold over a bit list; the list is computed for every scalar with Flocq (exact halvings, then round-half-even in the subnormal range). |
| C67 | Ordering of points ignores y | direct. |
| C68 | crack1/crack2 recover the private key | field algebra modulo prime n. |
| C69 | sqrtCQ returns a square root or None | Fermat/Euler. |
| C70 | next_random_integer does not respect its bit size | direct with an oracle for random bytes. |
| C71 | Key pairs are built only from 32, 96 or 104 bytes | direct with the external curve library as oracle. |
| C72 | Command line conversions are inverse | C48 + hex lemmas. |
| C73 | _lucas_sequence computes the Lucas sequences | Lucas doubling identities, induction on bits. |
| C74 | VerifySignature's outcome is the curve library's verdict | VerifySignature over a state with the selected curve; bitcoin.decompress modelled, the ecdsa package an oracle; square roots modulo p = 3 mod 4. |
| C76 | A truncated public key in a stream is not noticed | BytesIO.read of the remainder, then C61. |
| C77 | secp256r1() objects cannot sign, verify or recover keys | case analysis over the monadic model. |
| C78 | When a signature made by the library verifies | C78_exact: sign and verify unfolded to multiples of the base point by C86, then C87 (order) and the fact that two points have the same abscissa iff they are equal or opposite; C78_rejected_secp256k1 by computing the multipliers of 1, 2, 3; C78_rejected by computation on a small curve. |
| C79 | decompress raises to a rounded exponent | int/int division computed; Euler exponent algebra. |
| C80 | Which curve the process uses | process state (selected curve, Crypto._Instance); induction over the history of calls; Fermat for the candidate roots under the wrong curve. |
| C81 | Signatures are 64 bytes over the SHA-256 of the decoded message and verify | Sign over the same state; composition with C71 and C74. |
| C82 | Hashing helpers and script hashes | helpers over an arbitrary hash record; case analysis on the argument's type, length and hexadecimality. |
| C75 | Floating point numbers in streams | bit-level encoder/decoder for binary32/binary64; round trips by arithmetic on sign/exponent/fraction; rounding through Flocq's binary_round_correct. |
| C83 | Printing amounts | executable model of CPython's shortest float repr (search over powers of ten with read-back test); proved to be the shortest and nearest decimal that reads back via monotonicity of rounding (Flocq); exactness from the spacing of floats below 2^26; TryParse composition through C43's lemma. |
| C84 | The np-utils command | main as a function from parsed options to (lines, ending); executable bytes repr proved against an inductive grammar of bytes literals, which is shown unambiguous; the rest by C49, C72, C51, C54, C71. |
| C85 | Point addition is an abelian group law | The affine group law over an abstract field (associativity by the usual case analysis with polynomial identities checked by field/ring, L_Assoc, L_Group), instantiated with the integers modulo p (L_Fp) and transported to ec_add (L_Fp2). |
| C86 | What point * scalar computes | The loop is a fold over the bits of the halved floats (L_Mul); the fold is a multiple by C85; the bit lists from exact rounding (L_Mul2). |
| C87 | Public keys are wrong for all private keys but two | Order: addition chains with checked slopes (L_Chain, L_Order), primality of n by Pocklington/Lucas certificates (L_Prime, L_Prime2; the order of secp256r1 is the constant of the standard, it does not occur in /repo). The scalars: for each (a, s) at most two k are possible, all of which are excluded by a scan (L_Wrong). |
| C88 | There are at most 132096 public keys | Counting the triples (k mod 2, a, s) of C86. |
| C89 | What point / number computes | Rounding of 1/a (L_Div); inverses of 2^N - 1 modulo n as certificates (L_Div2). |
| C90 | Fixed8 amounts built from BigIntegers | `M_Fixed8Big`: the value attribute is an int or a BigInteger (`M_BigInteger.apply_op` for the operators, the quotient by `D` is a float or a BigInteger); printed text against a digit-list specification |
| C91 | WriteVarString with an encoding other than UTF-8 | `M_WriterArgs`: nine codecs; hexadecimal digits read in pairs are code units in 0x3030..0x6666, never ASCII and never surrogates; read in fours they exceed 0x10FFFF |
| C92 | The integer writers and arguments that are not plain ints | `M_WriterArgs.pack_any`; case analysis on the argument type, over all streams |
| C93 | Reading from a stream that fails or delivers short | `M_Stream`: every reader method over an arbitrary read function with state; refinement to BytesIO for the checked calls under every schedule (`S_Stream.sched_read`), simulation lemma `sim_read` |
| C94 | Writing to a stream that loses data or crashes | `M_Stream`: every writer method over an arbitrary write function; each call is a fixed list of writes (`feed`); crash and loss by induction on that list |
| C95 | random_key depends on all its sources | `M_RandomKey`: the sources are inputs; repr of bytes and decimal digits; the literal ends at the last quote, so the text splits uniquely; float multiplication by Flocq |
| C96 | The settable address version | `M_Version` repeats the functions that reach Helper.py:81 with the version as an argument (equal to the others at 23 by computation); uniqueness of Base58Check; the NEP-2 run is computed symbolically |
| C97 | Values of several field objects | `M_FieldObj` models the operators over a heap of field objects with identity, including the coercions of field.value; congruences, Bezout for division, decimal expansion |
| C98 | Points of several curve objects | `M_FieldObj` point operations over curve objects; simulation: each is `M_ECCurve`'s operation on the numbers, so C65 carries over |
| C99 | Key derivation | `M_Bitcoin` models the functions of bitcoin 1.1.42 that neocore calls; `L_Bitcoin`: a Jacobian triple represents a point, each operation simulates `ec_add` (C85), extended Euclid for `inv`; order of G from C87 |
| C100 | Signatures made by Sign | `M_Bitcoin.ecdsa_raw_sign` and ecdsa 0.13's verification; algebra modulo the prime n, linearity of multiples (C85-C87) |
| C101 | Which signatures verify | `L_Ecdsa`: the affine arithmetic with its signed-digit ladder simulates `ec_add`; verification equation stated in `S_Signature`; opposite points for the second form, four candidate points for the binding |
| C102 | A write overwrites exactly its own bytes, wherever the stream stands | `S_Overwrite` states overwriting byte by byte; `L_Overwrite`: every writer call equals one write of a fixed byte string with a fixed outcome (closed under sequencing), messages by C19 |
| C103 | Fixed8 next to other objects | `M_Fixed8Ops`: operators on objects through `other.value`, reflected operators, containment and sum; induction on lists |
| C104 | ReadSerializableArray's class name | `M_ClassName`: split/join of the name, an arbitrary environment of modules, the loop under try; reduction to C17/C18 |
| C105 | NEP-2 encryption is AES-256 under an scrypt key, and can always be undone | `M_Nep2`: AES (tables, key schedule, rounds, ECB) and scrypt (HMAC, PBKDF2, Salsa20/8, BlockMix, ROMix) as executable definitions; `S_Nep2` states FIPS 197 with field arithmetic and index equations; round by round inversion, linearity of xtime; instance of `keylib_ok`, so C52/C99 apply |
| C106 | Different passphrases that are the same NEP-2 key | HMAC with zero-padded or hashed keys is equal, hence PBKDF2, scrypt, import and export |
| C107 | Fixed8.TryParse: which arguments it accepts and what it makes of them | M_Parse.v models TryParse on every type of argument (float() and int() of text via M_Float's parser, the Unicode digit/space translation of CPython with the database as a parameter); S_Parse.v states the grammar of the Python reference and the number each text denotes, independently of the parser; L_Parse.v proves the parser sound and complete for the grammar; the results follow with Flocq's rounding. |
| C108 | SHA-256 and RIPEMD-160, and everything hashed with them, follow the published definitions | S_Hash.v states SHA-256 and RIPEMD-160 as relations over bits, words, blocks and primes, without executable helpers of the model; the executable functions of M_Hash.v are proved to meet them for messages of any length by induction over rounds and blocks, and the relations are proved single-valued (the constants included), giving C108_sha256 and C108_ripemd160 as equivalences; then Hash256, Hash160, ToScriptHash and ToAddress are restated with the relations. |
| C109 | MerkleTree with the documented argument types | M_MerkleArgs.v runs the heap model of M_Merkle.v on elements that may have no UInt and on flags of other types; the failing pass of the loop is found by induction over the first row. |
| C110 | A Fixed8 holding a float: what Fixed8(1.5) is and does | M_Fixed8Float: values are ints or floats, CPython's mixed arithmetic (float_rem, _float_div_mod, float_richcompare) over SpecFloat, libm pow a parameter. Correct rounding and exactness of fmod proved with Flocq; closure by induction over expressions. Not proved: // of floats whose quotient exceeds 2^48 (unless both are whole numbers up to 2^53) |
| C111 | Threads: the shared curve and Crypto.Default() under every interleaving | M_Threads: each thread is a list of atomic steps (store of one module variable, load, test of _Instance, object creation, store of _Instance, return) and a schedule picks the next thread. Safety by an inductive invariant (what each thread may rely on at its program point, stable under the steps of the others), progress by a decreasing measure, the races by explicit schedules |
| C112 | Threads sharing one stream through readers and writers, under every interleaving | M_Shared: a call in progress is the list of answers its stream operations got; a step replays the call over a recorded tape (the stream-generic methods of M_Stream) to its next operation and performs it on the shared BytesIO. Every call is shown to be a finite tree of stream operations (P_Shared), uninterrupted execution by induction on the tree, one-use calls by a step-by-step simulation, appending by induction on the schedule, the torn calls by explicit schedules for every value |
| C113 | The endian argument as any text | M_Endian: struct's format parser (order character, blanks, counts, item letters, alignment; CPython's prepare_s on a 64-bit little-endian machine) in front of the methods' letters; texts ending in a zero count, and the value of a '0p' item, stay outside. Proved by induction over the text: what the item list of text + letter looks like. |
| C114 | How deep the recursion goes | M_Recursion: the recursive functions once more, given the number of frames left (calls that return are counted by the frames they take). Depth of GCD by induction along Euclid's algorithm, Lame's theorem with Fibonacci numbers; depth of the trees by induction on ceil(log2 n). |
| C115 | A Merkle tree keeps the objects it was given and goes stale | M_MerkleObj: the construction once more with nodes that refer to the UInt objects of M_UIntHeap. Simulation: every statement of the object-level construction does to the heap seen by value what M_Merkle does, and only adds to the world; frame argument for the later history. |
| C116 | UInts in sorted(), min() and max() | M_UIntColl: a sorting algorithm is a decision tree of < questions that ends in a permutation; min and max are folds. Contract: it sorts every list of ints stably (insertion sort is proved to meet it). The run on UInts equals the run on the ints value // 256 (C31), so the contract transfers; for mixed sizes, an algorithm that never compares across the sizes could not sort the same ints shifted up and down. |
| C117 | UInts as keys of dicts and members of sets | M_UIntColl: the world of M_UIntHeap and one dict, an entry keeping the hash its key had when stored. A lookup is a relation: a found entry is the same object, or has the stored hash and an equal key; the place in the hash table is not modelled, so if the stored hash differs from the current one the entry of the very object may or may not be found. Invariant over clean histories: stored hash = hash of the bytes, keys' bytes pairwise different, entries = abstract map. The negative statements by computing the world of the given history. |
| C118 | np-utils does what its command line says, or nothing | M_Args: argparse's classification of the arguments and its loop over options, for the one parser cli.py makes (Python 3.4-3.11; compared with the real argparse on 200000 random lines). Specification: an inductive relation between argument lists and settings. Every abbreviation is recognised (finitely many, the value being arbitrary), every recognised argument is one; induction over the list. The regular expression for negative numbers, the help text and the fate of -hX are parameters. |
| C119 | BigInteger.Equals and FromBytes with arguments of other types | M_BigInteger: Equals_any (int.__eq__ called by name, the NotImplemented object and its truth value before Python 3.14), FromBytes_any (int.from_bytes over an iterable). By cases on the argument and induction over the list. |
| C120 | Pass phrases, addresses, signatures and keys of other types | M_OtherArgs: the functions of M_KeyPair, M_Helper and M_Crypto with the arguments as Python values of any type, looked at where the code first uses them. By cases on the argument; agreement with the earlier functions on texts and bytes is part of the theorems. |
| C121 | Helper functions with arguments of other types | M_HelperArgs: the functions of M_Helper on Python values of any type; base256_encode's loop for floats with a number of rounds (None: not ended). Cases on the argument; termination for floats by the bound n//256 <= n/64 for n >= 256 (rounding errors of _float_div_mod through Flocq) and = 0 below; infinity becomes nan, which is truthy, after one round. |
| C122 | BigIntegers next to floats, and in sums | M_BigMore: Python's dispatch for a BigInteger or int next to a float over float's operators of M_Fixed8Float; sum as a fold. Proved through the rounding lemmas of L_Fixed8Float and the exact comparison of C110; induction for sums. |
| C123 | BigInteger built from other values | M_BigMore.big_new over int_of_text (M_Float) and to_ascii (M_Parse); the grammar S_BigMore.int_literal is proved equivalent to the parser with the lemmas of L_Parse (soundness and completeness); str() through int_text_spec. Python's limit of 4300 digits for str/int conversions (since 3.10.7) is not modelled. |
| C124 | A Fixed8 holding a Decimal: what Fixed8(Decimal('1.5')) is and does | M_Fixed8Dec: the algorithms of Lib/_pydecimal.py on sign, coefficient and exponent in the default context. dec_fix is proved to be Flocq's rounding to 28 digits (FLX), the sticky last digit of the quotient to leave the rounding unchanged; the rest by exact arithmetic over the common exponent. Not modelled: results below 10^-999999, signs of zero, infinities, NaNs, str() of a Decimal, **. |

## Layout (rocq/theories)

* `M_*.v` - the executable model: one file per source module, plus the Python runtime pieces it calls.
* `S_*.v` - small independent specifications used in theorem statements.
* `L_*.v` - lemmas.
* `P_*.v` - property theorems, with non-vacuity examples beside them.
* `T_Repo.v` - the values asserted by the unit tests of the repository, checked on the model (tests of the model, no properties).

`tools/manifest.py` regenerates `_CoqProject` and `MANIFEST.json` from the `P_*.v` files,
`tools/assumptions.py` regenerates `ASSUMPTIONS.md`, `tools/mutate.py` runs the wrong programs of
`seeded/mutants.json` and `tools/log.py` writes `seeded/LOG.jsonl` from its results.

## Trusted base

* Coq 8.16.1's kernel (and `coqchk`, which rechecks the compiled files).
* Axioms: `ASSUMPTIONS.md` lists what `Print Assumptions` gives for each theorem. Most theorems are
  closed under the global context. The others (everything about floats, and what goes through
  `int(a / b)`: C41-C44, some of C66, C70, C75, C77, C83, and the Merkle theorems) use the axioms of
  the standard library's real numbers: `ClassicalDedekindReals.sig_forall_dec`,
  `ClassicalDedekindReals.sig_not_dec`, `FunctionalExtensionality.functional_extensionality_dep` and
  `Classical_Prop.classic`. No axiom of ours, none of another library.
* Libraries: the standard library and Flocq (proofs about rounding only; the float model itself is
  the standard library's executable `SpecFloat`).
* That the model is what the code does. Every definition cites the lines it models. The Python
  runtime, and the third-party packages below, are modelled from their documented behaviour and
  checked only on examples.

## What is modelled

| module | modelled | not modelled |
|---|---|---|
| `IO/BinaryReader.py`, `IO/BinaryWriter.py` | every method, over a BytesIO (data, position) with all exceptions, and (`M_Stream`, C93/C94) over an arbitrary stream object whose reads may be short or raise and whose writes may be short or fail, and (`M_Shared`, C112) over one BytesIO shared by threads; the `endian` argument as any text (`M_Endian`, C113); `WriteSerializableArray`/`ReadSerializableArray` over an arbitrary class, which `ReadSerializableArray` finds by name in an arbitrary environment of modules (C104) | buffering inside file objects, seek/tell on non-BytesIO streams; encodings other than the nine of C91; the texts of log messages; NaN sign and payload in the float formats |
| `UIntBase.py`, `UInt160.py`, `UInt256.py` | all of it, once as values and once with objects and shared bytearrays | `Size` as property syntax, messages of exceptions |
| `BigInteger.py` | all of it; right operands of any type; `int / BigInteger`; `Equals` and `FromBytes` of any type (C119); floats on either side, `divmod`, `sum`, the constructor (C122, C123) | `**` of floats beyond its errors (libm); `int(text, base)`; the 4300-digit limit of int/str conversion in newer Pythons |
| `Fixed8.py` | all of it, including float(), int(), str(float) and Decimal arithmetic, values that are BigIntegers, values that are floats (C110; C's pow is a parameter), operands of any type (C103), TryParse of any type (C107; the Unicode database is a parameter) | values that are Decimals: ToString and ** of them, infinities and NaNs (the rest is C124); complex values |
| `Cryptography/Helper.py` | all of it; in `random_key` the random sources and the clock are inputs; arguments of other types, floats included (`M_HelperArgs`, C121) | |
| `Cryptography/Crypto.py` | all of it; the process-wide curve selection as state (M_Crypto: call after call; M_Threads: interleaved loads and stores of several threads) | in M_Threads the arithmetic of a call is the list of shared variables it looks at |
| `Cryptography/ECCurve.py` | field elements, points, encoding, decoding, all curve operations, ECDSA, including the float divisions | (mixing of field and curve objects, str(): `M_FieldObj`, C97, C98) `randbytes`: the random numbers are an input |
| `Cryptography/MerkleTree.py` | construction, ToHashArray, DepthFirstSearch, Trim, as mutable nodes on a heap; over UInt objects with shared bytearrays (`M_MerkleObj`, C115); elements and flags of other types (`M_MerkleArgs`, C109) | `MerkleTreeNode.Size` (sys.getsizeof), more than 2^53-1 leaves (Python's recursion limit: `M_Recursion`, C114) |
| `KeyPair.py` | all of it; pass phrases, signatures, keys and addresses of other types (`M_OtherArgs`, C120) | the texts of exceptions |
| `IO/Mixins.py` | SerializableMixin (C104) | TrackableMixin, two class attributes |
| `Utils.py`, `bin/cli.py` | all of it, including what is printed and the exit status; argparse's reading of the arguments (`M_Args`, C118) | the help text, what argparse writes to standard error |

Third-party code: SHA-256 and RIPEMD-160 are an arbitrary record of functions with the right output
lengths (`hash_ok`); `M_Hash.v` also contains both algorithms, proved in C108 to be the published
functions. Base58
(`base58` package) is modelled; the flag `rs` covers releases with and without `rstrip`. scrypt,
AES and NFC are a record of functions with stated laws (`keylib_ok`); C105/C106 put in `M_Nep2`,
AES (FIPS 197) and scrypt (RFC 7914) written from the standards and checked on their vectors, so
that only NFC (Unicode tables) stays open. Key derivation, signing and
verification are oracles of `M_KeyPair` and `M_Crypto`, and C99-C101 put in `M_Bitcoin`: the
functions of `bitcoin` 1.1.42 (inv, Jacobian arithmetic, privkey_to_pubkey, decode_privkey,
deterministic_generate_k, ecdsa_raw_sign, decompress) and `ecdsa` 0.13 (inverse_mod, Point,
point_is_valid, verifies, VerifyingKey) that neocore calls. Their sources are not in /repo: they
are modelled from knowledge of the releases pinned in requirements.txt, and evaluated on the
project's own tests: with `real_hashes`, `M_Bitcoin` gives the address of
tests/test_KeyPair.py:92-94 and the verdicts of tests/test_cryptography.py:212-236 (each some
minutes of computation, so not part of the build). Not modelled there: Base58Check private keys as
argument of Sign (an oracle `wif`), and white space in a 32-character str given as private key.

Simplifications inside the modelled parts are in the comments of the definitions.
