{"id": "C01", "title": "Fixed-width integers round-trip through the stream", "statement": "For each of Write/Read Int8, UInt8, Int16, UInt16, Int32, UInt32, Int64, UInt64 and either endianness, writing any value of the type's range at the end of a stream appends exactly the type's width in bytes (most/least significant first as requested), returns that width, and reading with the same endianness at that place returns the value and stops right after it, whatever follows.", "quantifier": "every width, signedness, endianness, every value in range, every earlier stream content and every following content", "why_tests_cant": "2^64 values times arbitrary surrounding streams cannot be enumerated; the tests try one value per width", "anchors": ["neocore/IO/BinaryWriter.py:WriteInt8..WriteUInt64,pack", "neocore/IO/BinaryReader.py:ReadInt8..ReadUInt64,unpack"]}
{"id": "C02", "title": "Out-of-range integers are refused without touching the stream", "statement": "Writing an integer outside the type's range raises struct.error and leaves the stream (content and position) exactly as it was; every value inside the range is accepted.", "quantifier": "every width, signedness, endianness, every integer, every stream state", "why_tests_cant": "the set of out-of-range integers is infinite; the tests try none", "anchors": ["neocore/IO/BinaryWriter.py:pack,WriteInt8..WriteUInt64"]}
{"id": "C03", "title": "Fixed-width reads decode every byte string to the one value that encodes to it", "statement": "A fixed-width read with at least w bytes left returns the in-range value whose encoding is exactly the next w bytes and advances by w; with fewer than w bytes left it raises struct.error (and the remaining bytes are consumed). Hence distinct w-byte strings give distinct values.", "quantifier": "every width, signedness, endianness, every stream content and position", "why_tests_cant": "all 2^64 byte patterns and all truncations", "anchors": ["neocore/IO/BinaryReader.py:unpack,ReadInt8..ReadUInt64"]}
{"id": "C04", "title": "Variable-length integers are encoded in the protocol's shortest form", "statement": "WriteVarInt of v writes 1 byte v for v<0xfd, 0xfd+2 bytes for v<=0xffff, 0xfe+4 bytes for v<=0xffffffff, 0xff+8 bytes for v<2^64, little endian by default, and no accepted encoding of the same value that ReadVarInt decodes is shorter; negative values raise without writing; v>=2^64 raises struct.error but has already written the 0xff marker byte.", "quantifier": "every integer v, both endiannesses, every stream", "why_tests_cant": "boundaries must be right for all 2^64 values and failure effects for all others", "anchors": ["neocore/IO/BinaryWriter.py:WriteVarInt"]}
{"id": "C05", "title": "Variable-length integers round-trip within the reader's limit", "statement": "For 0<=v<2^64, ReadVarInt(max) after WriteVarInt(v) (little endian) returns v and stops right after the encoding when v<=max, and raises when v>max (v=0 is always returned). With the default max (2^63-1) values from 2^63 on can be written but not read back.", "quantifier": "every v below 2^64, every max, every following content", "why_tests_cant": "cannot enumerate v times max", "anchors": ["neocore/IO/BinaryWriter.py:WriteVarInt", "neocore/IO/BinaryReader.py:ReadVarInt"]}
{"id": "C06", "title": "ReadVarInt's verdict on every byte stream", "statement": "At end of stream ReadVarInt returns 0 without raising; otherwise the first byte decides the width (0xfd: 2, 0xfe: 4, 0xff: 8, else itself), a truncated payload raises struct.error, the value is returned iff it does not exceed max, and non-shortest encodings are accepted (so decoding is not injective).", "quantifier": "every stream content, position and max", "why_tests_cant": "all byte strings, in particular truncated and over-long encodings", "anchors": ["neocore/IO/BinaryReader.py:ReadVarInt,ReadByte"]}
{"id": "C07", "title": "The default endianness pairing is the only one that round-trips variable-length integers", "statement": "WriteVarInt with endian='>' writes payloads the reader (which always reads little endian) decodes to the byte-swapped number; it returns the written value iff the value is below 0xfd or its payload is a byte palindrome.", "quantifier": "every v below 2^64", "why_tests_cant": "the exact set of values that survive cannot be enumerated", "anchors": ["neocore/IO/BinaryWriter.py:WriteVarInt", "neocore/IO/BinaryReader.py:ReadVarInt"]}
{"id": "C08", "title": "Length-prefixed byte strings round-trip", "statement": "ReadVarBytes and ReadVarString after WriteVarBytes(b) return exactly b and stop after it for every b whose length is within max, including b that happens to look like hexadecimal text.", "quantifier": "every byte string up to 2^63-1 bytes, every following content, every max at least its length", "why_tests_cant": "unbounded lengths and contents; the hex-lookalike case was a past bug (0.3.5)", "anchors": ["neocore/IO/BinaryWriter.py:WriteVarBytes", "neocore/IO/BinaryReader.py:ReadVarBytes,ReadVarString"]}
{"id": "C09", "title": "Text strings round-trip through WriteVarString/ReadVarString", "statement": "For every str without lone surrogates WriteVarString writes its UTF-8 length and its UTF-8 bytes, ReadVarString returns those bytes, and decoding them gives the original text; strings with lone surrogates raise and write nothing; bytes arguments are written verbatim.", "quantifier": "every sequence of Unicode code points", "why_tests_cant": "1.1 million code points in unbounded sequences", "anchors": ["neocore/IO/BinaryWriter.py:WriteVarString", "neocore/IO/BinaryReader.py:ReadVarString"]}
{"id": "C10", "title": "What a reader does when the announced data is missing", "statement": "SafeReadBytes(n) returns exactly n bytes or raises ValueError; ReadVarString and ReadString return exactly the announced number of bytes or raise struct.error; ReadVarBytes and ReadBytes silently return the shorter remainder.", "quantifier": "every stream, every announced length", "why_tests_cant": "all truncation points of all messages", "anchors": ["neocore/IO/BinaryReader.py:SafeReadBytes,ReadVarBytes,ReadVarString,ReadString,ReadBytes"]}
{"id": "C11", "title": "WriteBytes' hexadecimal guess is decided by content alone", "statement": "WriteBytes(v) with the default unhex=True writes the decoded bytes iff v has even length and consists of hexadecimal digits only, and v itself otherwise; with unhex=False it always writes v; it returns the number of bytes written; a str that is not such text raises and writes nothing.", "quantifier": "every byte string / str and every stream", "why_tests_cant": "the ambiguous inputs are a sparse subset no test hits by chance", "anchors": ["neocore/IO/BinaryWriter.py:WriteBytes"]}
{"id": "C12", "title": "Writing a UInt160/UInt256 and reading it back", "statement": "WriteUInt160/WriteUInt256 followed by the matching read returns an equal object for every value except exactly those whose 20/32 bytes are all ASCII hexadecimal digits; for those only half as many bytes are written and a read at that place returns an equal object exactly when those half-length bytes and the bytes that happen to follow them together begin with the original 20/32 bytes (otherwise it returns another value, or raises if too few bytes follow).", "quantifier": "every 160/256-bit value, every following content", "why_tests_cant": "2^160 values; the failing ones have probability (22/256)^20", "anchors": ["neocore/IO/BinaryWriter.py:WriteUInt160,WriteUInt256,WriteBytes", "neocore/IO/BinaryReader.py:ReadUInt160,ReadUInt256", "neocore/UIntBase.py:Serialize"]}
{"id": "C13", "title": "Fixed-length strings occupy exactly the requested length and read back", "statement": "WriteFixedString(s,n) raises (writing nothing) when s has no UTF-8 form (a lone surrogate) or its UTF-8 form is longer than n; otherwise, unless that form is an even-length all-hexadecimal text, it occupies exactly n bytes and ReadFixedString(n) returns the UTF-8 form without its trailing zero bytes. When it is such text only n - len/2 bytes are written and the decoded hex is what is stored.", "quantifier": "every str, every n, every following content", "why_tests_cant": "unbounded strings; hex-lookalikes such as 'cafe' are rare in tests", "anchors": ["neocore/IO/BinaryWriter.py:WriteFixedString", "neocore/IO/BinaryReader.py:ReadFixedString"]}
{"id": "C14", "title": "Hash lists round-trip", "statement": "ReadHashes after WriteHashes(l) returns l (lower-cased) for every list of 64-hex-digit strings none of whose 32 raw bytes are all ASCII hex digits; a list with a malformed (odd or non-hex) item raises.", "quantifier": "every list length and content", "why_tests_cant": "unbounded lists of 256-bit values", "anchors": ["neocore/IO/BinaryWriter.py:WriteHashes", "neocore/IO/BinaryReader.py:ReadHashes"]}
{"id": "C15", "title": "ReadHashes does unbounded work on a tiny stream", "statement": "The number of items ReadHashes returns is the announced count whatever data is present: for every n below 2^63 there is a stream of at most 9 bytes for which it returns n items (all empty once the data ran out).", "quantifier": "every count n", "why_tests_cant": "the claim is about arbitrarily large counts that no test can run", "anchors": ["neocore/IO/BinaryReader.py:ReadHashes"]}
{"id": "C16", "title": "Write2000256List and Read2000256List are not inverse", "statement": "For every list of 2000 64-digit hex strings, reading back with Read2000256List what Write2000256List wrote never returns that list (the writer stores 32 raw bytes per item, the reader expects 64 hex characters).", "quantifier": "every list of 2000 hashes", "why_tests_cant": "universal negative over 2^512000 lists", "anchors": ["neocore/IO/BinaryWriter.py:Write2000256List", "neocore/IO/BinaryReader.py:Read2000256List"]}
{"id": "C17", "title": "Arrays of serializable objects round-trip", "statement": "For every class whose own Serialize/Deserialize round-trip (UInt160 and UInt256 do, outside the hex exception), ReadSerializableArray after WriteSerializableArray(l) returns equal objects in order and stops after them, for every list up to the reader's max; None is written as an empty array.", "quantifier": "every class with round-tripping items, every list, every following content", "why_tests_cant": "quantifies over user classes and list lengths", "anchors": ["neocore/IO/BinaryWriter.py:WriteSerializableArray", "neocore/IO/BinaryReader.py:ReadSerializableArray"]}
{"id": "C18", "title": "A damaged array is silently cut at the first bad item", "statement": "ReadSerializableArray never raises because of an item: it returns exactly the items before the first one whose Deserialize raises (all of them if none does); only a bad count raises.", "quantifier": "every class, every stream", "why_tests_cant": "all corruption points", "anchors": ["neocore/IO/BinaryReader.py:ReadSerializableArray"]}
{"id": "C19", "title": "A message of mixed fields reads back field by field", "statement": "Any sequence of typed writes (integers of all widths and endiannesses, bool, byte, char, varint, var bytes, var strings, Fixed8, UInts outside the hex exception, arrays) followed by the same sequence of typed reads returns all values in order and consumes exactly the written bytes.", "quantifier": "every sequence of fields of any length, every value of each field type, every trailing content", "why_tests_cant": "unbounded message shapes", "anchors": ["neocore/IO/BinaryWriter.py:BinaryWriter", "neocore/IO/BinaryReader.py:BinaryReader"]}
{"id": "C20", "title": "Reads never change the data and never move backwards", "statement": "Any sequence of reader calls, successful or raising, leaves the stream's content unchanged and the position non-decreasing and never moves it beyond the end of data if it was not there already.", "quantifier": "every sequence of reader calls with every argument, every stream", "why_tests_cant": "all call histories including failing ones", "anchors": ["neocore/IO/BinaryReader.py:BinaryReader"]}
{"id": "C21", "title": "Writes at the end only append, even when they fail", "statement": "Any sequence of writer calls starting at the end of the stream keeps the earlier content as a prefix and stays at the end, whether or not calls raise.", "quantifier": "every sequence of writer calls with every argument, every stream", "why_tests_cant": "all call histories including failing ones", "anchors": ["neocore/IO/BinaryWriter.py:BinaryWriter"]}
{"id": "C22", "title": "Single bytes, chars and bools", "statement": "WriteBool/ReadBool, WriteChar/ReadChar, WriteByte/ReadByte round-trip; WriteByte raises for ints outside 0..255 and writes nothing; ReadByte at end of stream returns 0, which is indistinguishable from a stored zero byte; ReadByte(do_ord=False) returns the byte itself and empty bytes at the end; ReadBool is true for every nonzero byte.", "quantifier": "every value, every stream", "why_tests_cant": "all bytes and stream states", "anchors": ["neocore/IO/BinaryWriter.py:WriteByte,WriteBool,WriteChar", "neocore/IO/BinaryReader.py:ReadByte,ReadBool,ReadChar"]}
{"id": "C23", "title": "Subclasses of int are silently dropped by WriteByte and short WriteVarInt", "statement": "WriteByte of a BigInteger or bool writes nothing and raises nothing; WriteVarInt of a BigInteger below 0xfd (or of a bool) therefore writes nothing, while from 0xfd on it writes the normal encoding.", "quantifier": "every BigInteger value, every stream", "why_tests_cant": "universal over values; tests use plain ints only", "anchors": ["neocore/IO/BinaryWriter.py:WriteByte,WriteVarInt", "neocore/BigInteger.py:BigInteger"]}
{"id": "C24", "title": "Reported byte counts of WriteVarInt/WriteVarBytes", "statement": "WriteVarInt reports None below 0xfd and otherwise 2, 4 or 8, one less than the bytes actually written; WriteVarBytes reports the payload length, less than the bytes written by the size of the prefix.", "quantifier": "every value / byte string", "why_tests_cant": "all values", "anchors": ["neocore/IO/BinaryWriter.py:WriteVarInt,WriteVarBytes"]}
{"id": "C25", "title": "Fixed8 amounts round-trip through the stream", "statement": "WriteFixed8/ReadFixed8 return the same amount for every value in the signed 64-bit range, in 8 little-endian bytes, and WriteFixed8 raises without writing outside it. Fixed8.Size() is 8, the number of bytes written.", "quantifier": "every integer amount, every following content", "why_tests_cant": "2^64 amounts", "anchors": ["neocore/IO/BinaryWriter.py:WriteFixed8", "neocore/IO/BinaryReader.py:ReadFixed8", "neocore/Fixed8.py:Fixed8"]}
{"id": "C26", "title": "swap32 is an involution that reverses the four bytes", "statement": "swap32 reverses the base-256 digits of every 32-bit value, swap32(swap32(i))=i, and it raises outside 0..2^32-1.", "quantifier": "every integer", "why_tests_cant": "2^32 values and all outside", "anchors": ["neocore/IO/BinaryWriter.py:swap32"]}
{"id": "C27", "title": "convert_to_uint160/uint256 give the low 20/32 bits as text", "statement": "For every v>=0 convert_to_uint160(v) is the 20 character and convert_to_uint256(v) the 32 character binary text whose value is v modulo 2^20 / 2^32 (so distinct small values give distinct texts and larger values wrap). Negative values down to -2^19 (-2^31) give the bits of two's complement; below that the prefix 0b and then the minus sign of Python's bin() get into the text, and far below the magnitude's bits come out.", "quantifier": "every integer", "why_tests_cant": "infinitely many values", "anchors": ["neocore/IO/BinaryWriter.py:convert_to_uint160,convert_to_uint256"]}
{"id": "C28", "title": "UInt construction enforces the size", "statement": "UIntBase(n, data) (UInt160: n=20, UInt256: n=32) succeeds iff data is absent, or is bytes/bytearray of exactly n bytes, and then holds those bytes (n zero bytes by default); str and other types or lengths raise.", "quantifier": "every argument value and type, every n", "why_tests_cant": "all lengths and contents", "anchors": ["neocore/UIntBase.py:__init__", "neocore/UInt160.py", "neocore/UInt256.py"]}
{"id": "C29", "title": "UInt text form round-trips", "statement": "ParseString(u.ToString()) and ParseString(u.To0xString()) equal u for every UInt160/UInt256; the text is lower-case hex of the bytes in reverse order (big endian number). To0xString prepends 0x, ToString2 is the hex of the bytes in stored order, and ToBytes is the ASCII encoding of ToString.", "quantifier": "every value", "why_tests_cant": "2^160 / 2^256 values", "anchors": ["neocore/UInt160.py:ParseString", "neocore/UInt256.py:ParseString", "neocore/UIntBase.py:ToString,To0xString"]}
{"id": "C30", "title": "ParseString accepts exactly well-formed hex", "statement": "ParseString(s) succeeds iff s, after removing one optional leading '0x', consists of exactly 40 (64) hexadecimal digits of either case; the result's text form is the lower-cased digits; anything else raises: a wrong number of characters Exception, the right number ValueError, or Exception again if it consists of pairs of digits with ASCII blanks between them. Bytes are never parsed (Exception, or TypeError if there are exactly 40 (64)), None and numbers raise TypeError.", "quantifier": "every string and every other argument", "why_tests_cant": "all strings", "anchors": ["neocore/UInt160.py:ParseString", "neocore/UInt256.py:ParseString"]}
{"id": "C31", "title": "UInt ordering follows the numeric value except for the lowest byte", "statement": "CompareTo, <, >, <=, >= on equal-size UInts order them by their little-endian numeric value divided by 256: a total preorder in which values differing only in the first stored byte compare as equal although they are not ==. Comparing different sizes or non-UInts raises.", "quantifier": "every pair / triple of values of every size", "why_tests_cant": "2^512 pairs; the tests never vary byte 0 alone in the deciding direction", "anchors": ["neocore/UIntBase.py:CompareTo,__lt__,__gt__,__le__,__ge__"]}
{"id": "C32", "title": "Equality and hash of UInts agree", "statement": "== is an equivalence that holds iff the bytes are equal (across UInt classes; never with other types), equal UInts have equal hash as long as their bytes were not changed from outside after construction, and the hash is the little-endian number of the first four bytes.", "quantifier": "every pair of values", "why_tests_cant": "all pairs of values", "anchors": ["neocore/UIntBase.py:__eq__,__hash__,GetHashCode"]}
{"id": "C33", "title": "A UInt's identity survives any history unless its bytearray is mutated", "statement": "For every history of constructions, deserializations, comparisons and hash/dict uses, equal UInts keep equal hashes; but a UInt built from a bytearray (or whose ToArray() result is written to) shares it, and after mutating that bytearray its text changes while its hash does not, so equal UInts can have different hashes.", "quantifier": "every history of operations over any number of objects and shared bytearrays", "why_tests_cant": "aliasing histories are unbounded", "anchors": ["neocore/UIntBase.py:__init__,ToArray,Deserialize,__hash__,__eq__"]}
{"id": "C34", "title": "Deserialize can break a UInt's size", "statement": "u.Deserialize(reader) sets u to the next Size bytes when that many remain and refreshes its hash; on a shorter stream it does not raise and leaves a UInt160/UInt256 with fewer bytes than its size, so ReadSerializableArray of UInt256 can return malformed values; ReadUInt160/ReadUInt256 raise instead.", "quantifier": "every stream and value", "why_tests_cant": "all truncation points", "anchors": ["neocore/UIntBase.py:Deserialize", "neocore/IO/BinaryReader.py:ReadUInt256,ReadUInt160,ReadSerializableArray"]}
{"id": "C35", "title": "BigInteger signed bytes round-trip", "statement": "FromBytes(x.ToByteArray(), signed=True) = x for every integer x.", "quantifier": "every integer", "why_tests_cant": "infinitely many integers and the sign boundary at every byte length", "anchors": ["neocore/BigInteger.py:ToByteArray,FromBytes"]}
{"id": "C36", "title": "BigInteger default decoding is unsigned", "statement": "FromBytes(x.ToByteArray()) = x iff x>=0; for x<0 it returns x + 256^len. ToByteArray(signed=False) of x>=0 is the shortest unsigned encoding and round-trips with the default decoding; for x<0 signed=False is ignored and the signed encoding is returned.", "quantifier": "every integer", "why_tests_cant": "infinitely many integers", "anchors": ["neocore/BigInteger.py:ToByteArray,FromBytes"]}
{"id": "C37", "title": "Length of BigInteger.ToByteArray", "statement": "ToByteArray of x>=0 uses the fewest bytes any two's complement encoding of x can have; for x<0 it uses 1+ceil(bitlen/8) bytes, one more than necessary iff -x<=2^(8k-1) for k=ceil(bitlen/8) bytes.", "quantifier": "every integer", "why_tests_cant": "infinitely many integers", "anchors": ["neocore/BigInteger.py:ToByteArray"]}
{"id": "C38", "title": "BigInteger division and shifts", "statement": "a/b and a//b of BigIntegers are the same floor quotient, a = (a/b)*b + a%b with 0<=|a%b|<|b| and the sign of b, zero divisors raise; a>>n and a<<n are floor division by and multiplication by 2^n, negative counts raise; the listed operators return BigInteger, while reflected operators (int op BigInteger), ** (exponent at least 0), &, |, ^, ~, unary + and divmod return plain int, and int / BigInteger is the float nearest to the quotient (OverflowError when there is none) although BigInteger / int is the floor. A right operand that is not an int (a float, a text, None) makes the listed operators raise TypeError, also where int itself would accept it (2 * 'ab', 2 + 0.5).", "quantifier": "all integers", "why_tests_cant": "infinitely many integers", "anchors": ["neocore/BigInteger.py:__truediv__,__floordiv__,__mod__,__rshift__,__lshift__"]}
{"id": "C39", "title": "Fixed8 addition, subtraction, negation and ordering are exact", "statement": "Fixed8 sums, differences, negations and comparisons are exactly those of the underlying integers (a commutative group with a compatible total order), in-place forms agree with the plain ones, and no operand is modified.", "quantifier": "all integers", "why_tests_cant": "infinitely many amounts", "anchors": ["neocore/Fixed8.py:__add__,__sub__,__neg__,__eq__,__lt__,__gt__,__le__,__ge__,__iadd__"]}
{"id": "C40", "title": "Fixed8 multiplication and division are not rescaled", "statement": "Fixed8 product is the raw product of the underlying integers (so One()*x is x times 10^8, and One() is not a neutral element) and the quotient is the truncated raw quotient (x/One() is x.ToInt() in satoshi); floor division and modulo satisfy the floor division law. Powers (exponent at least 0, with or without modulo) are those of the raw integers; dividing or reducing by an amount of zero raises ZeroDivisionError.", "quantifier": "all integers", "why_tests_cant": "infinitely many amounts", "anchors": ["neocore/Fixed8.py:__mul__,__truediv__,__floordiv__,__mod__,__pow__"]}
{"id": "C41", "title": "Fixed8 true division is exact up to 2^53", "statement": "a/b is the quotient truncated toward zero for all |a|<=2^53 and b != 0, and b=0 raises; from 2^53+1 on it can be wrong (2^53+1 over 1 yields 2^53).", "quantifier": "all integers a with |a|<=2^53 and all b", "why_tests_cant": "2^54 numerators times all divisors; the error region starts at one point", "anchors": ["neocore/Fixed8.py:__truediv__"]}
{"id": "C42", "title": "Fixed8 Ceil, Floor and ToInt are exact up to 2^27 whole units", "statement": "For every amount with |value| <= 2^27*10^8 (more than the 10^8 units NEO/GAS can have) Ceil/Floor/ToInt are the exact ceiling, floor and truncation to whole units; just above it (2^27*10^8+1) Ceil returns less than the amount.", "quantifier": "all amounts in range", "why_tests_cant": "2.7e16 amounts", "anchors": ["neocore/Fixed8.py:Ceil,Floor,ToInt"]}
{"id": "C43", "title": "Fixed8.FromDecimal", "statement": "FromDecimal of an int n is exactly n*10^8; of a Decimal with at most 8 fractional and 28 total digits it is exact; of a float f it is the truncation of the correctly rounded product f*10^8, which can be one satoshi short (0.29). A Decimal of any length gives the product with 10^8 rounded to 28 significant digits, ties to even, and then cut towards zero; an amount from 10^1000000 satoshi on raises decimal.Overflow. nan raises ValueError; infinities and products beyond the float range raise OverflowError; Decimal's NaN and infinities do the same, a signalling NaN raises InvalidOperation.", "quantifier": "all ints, decimals and floats", "why_tests_cant": "infinitely many inputs", "anchors": ["neocore/Fixed8.py:FromDecimal"]}
{"id": "C44", "title": "Fixed8.TryParse", "statement": "TryParse of a value float() accepts yields the truncation of float(value)*10^8, which for decimal texts with at most 8 fractional digits can be one satoshi short ('0.29'); unparsable input yields None, negative input with require_positive yields None; 'nan', 'inf' and overflowing numbers raise.", "quantifier": "all parse results", "why_tests_cant": "infinitely many inputs", "anchors": ["neocore/Fixed8.py:TryParse"]}
{"id": "C45", "title": "base256_encode is the little-endian representation", "statement": "For n>=0 base256_encode(n,w) decodes (little endian) to n and has length max(w, number of base-256 digits, 1); negative n raises.", "quantifier": "every integer n and width w", "why_tests_cant": "infinitely many", "anchors": ["neocore/Cryptography/Helper.py:base256_encode"]}
{"id": "C46", "title": "xor_bytes is an involution", "statement": "xor_bytes(a,b) for equal lengths has that length and xor_bytes(xor_bytes(a,b),b)=a; unequal lengths or non-bytes raise AssertionError.", "quantifier": "every pair of byte strings", "why_tests_cant": "all byte strings", "anchors": ["neocore/Cryptography/Helper.py:xor_bytes"]}
{"id": "C47", "title": "Base58 round-trips and is a bijection", "statement": "b58decode(b58encode(b)) = b for every byte string including leading zeros; b58encode(b58decode(s)) = s for every text over the alphabet; other characters raise ValueError.", "quantifier": "every byte string / every text", "why_tests_cant": "all strings", "anchors": ["neocore/Cryptography/Helper.py:scripthash_to_address", "neocore/bin/cli.py:address_to_scripthash", "neocore/KeyPair.py:Export"]}
{"id": "C48", "title": "Addresses round-trip and always look like NEO addresses", "statement": "For every 20-byte script hash, ToAddress yields 34 base58 characters starting with 'A', which isValidPublicAddress accepts and address_to_scripthash maps back to the same 20 bytes; so distinct script hashes have distinct addresses.", "quantifier": "every script hash", "why_tests_cant": "2^160 script hashes", "anchors": ["neocore/Cryptography/Crypto.py:ToAddress", "neocore/Cryptography/Helper.py:scripthash_to_address", "neocore/bin/cli.py:address_to_scripthash", "neocore/Utils.py:isValidPublicAddress"]}
{"id": "C49", "title": "What address_to_scripthash accepts", "statement": "address_to_scripthash(a) succeeds iff a is non-empty base58 text (up to trailing whitespace that some base58 releases trim) whose decoded bytes end in the first four bytes of the double SHA-256 of the rest, whatever the version byte and payload length; it returns the bytes between; a wrong version byte is not rejected; other texts raise ConversionError or let ValueError, UnicodeError or IndexError escape.", "quantifier": "every string", "why_tests_cant": "all strings", "anchors": ["neocore/bin/cli.py:address_to_scripthash"]}
{"id": "C50", "title": "What isValidPublicAddress accepts", "statement": "isValidPublicAddress(a) is true iff a has 34 characters, starts with 'A' and is valid Base58Check (up to trailing whitespace that some base58 releases trim); it never raises on any text; accepted addresses carry 21 payload bytes with version byte 22, 23 or 24 - the version byte need not be 23.", "quantifier": "every string", "why_tests_cant": "all strings", "anchors": ["neocore/Utils.py:isValidPublicAddress"]}
{"id": "C51", "title": "WIF export and import are inverse", "statement": "PrivateKeyFromWIF(kp.Export()) returns kp's private key for every 32-byte key; the export is 52 characters starting with K or L and is the Base58Check of 0x80, the key and 0x01; conversely every accepted WIF text is exactly what Export produces for the returned key (up to trailing whitespace that some base58 releases trim); any other text raises ValueError or a subclass; None raises TypeError. Arguments that are no text raise TypeError, except a bytearray of another length than 52 (ValueError).", "quantifier": "every 32-byte key / every string", "why_tests_cant": "2^256 keys", "anchors": ["neocore/KeyPair.py:Export,PrivateKeyFromWIF"]}
{"id": "C52", "title": "NEP-2 export and import are inverse", "statement": "For every 32-byte key accepted by the constructor whose address exists and every passphrase of at least 2 characters whose NFC form can be encoded in UTF-8, ExportNEP2 yields 58 characters starting with '6P' that PrivateKeyFromNEP2 with the same passphrase (or one with the same NFC form) maps back to the key; a shorter passphrase raises ValueError. A key pair built from a 96/104-byte blob with a public key that is not its private key's exports a text that can only be imported if the two addresses agree in the stored hash.", "quantifier": "every key, every passphrase", "why_tests_cant": "2^256 keys times all passphrases; scrypt makes each test take seconds", "anchors": ["neocore/KeyPair.py:ExportNEP2,PrivateKeyFromNEP2"]}
{"id": "C53", "title": "NEP-2 import only returns keys whose address matches", "statement": "PrivateKeyFromNEP2 returns a key if and only if the text is 58 characters of valid Base58Check whose stored address hash is the double SHA-256 prefix of the address of the key decrypted with the passphrase; the header and flag bytes are not checked. Otherwise it raises ValueError (or a subclass), a plain Exception when the curve library refuses the candidate key, or AssertionError when trimmed whitespace makes the decoded text too short. Arguments that are no text raise TypeError (ValueError for a bytearray).", "quantifier": "every string and passphrase", "why_tests_cant": "all inputs", "anchors": ["neocore/KeyPair.py:PrivateKeyFromNEP2"]}
{"id": "C54", "title": "One key, one address, by every route", "statement": "GetAddress equals the address obtained through pubkey_to_redeem, redeem_to_scripthash and scripthash_to_address, and pubkey_to_pubhash equals that script hash; the script is 0x21, the 33-byte compressed key, 0xac; a key at infinity has no address (binascii.Error); two keys with the same address have the same x and parity or exhibit a hash collision.", "quantifier": "every public key", "why_tests_cant": "2^256 keys", "anchors": ["neocore/KeyPair.py:GetAddress", "neocore/Cryptography/Helper.py:pubkey_to_redeem,redeem_to_scripthash,scripthash_to_address,pubkey_to_pubhash", "neocore/Cryptography/Crypto.py:ToScriptHash,ToAddress"]}
{"id": "C55", "title": "Merkle root is the pairwise double-SHA-256 fold", "statement": "ComputeRoot of a non-empty list of UInt256 is the list's only element if there is one and otherwise the root of the list of double-SHA-256 digests of consecutive pairs, the last element being paired with itself when the length is odd; an empty list raises.", "quantifier": "every list of fewer than 2^53-1 hashes (beyond that the float division in the code loses precision)", "why_tests_cant": "unbounded lists", "anchors": ["neocore/Cryptography/MerkleTree.py:MerkleTree.ComputeRoot,__Build"]}
{"id": "C56", "title": "Merkle tree shape", "statement": "For n>=1 leaves the tree's Depth is 1+ceil(log2 n); the leaves are the given hashes in order; each row's node number i has node 2i of the row below as left child and node 2i+1 as right child (2i again when it is missing), is their Parent, and carries the double-SHA-256 digest of their hashes; only the root has no Parent and only leaves have no children; objects that existed before are not touched.", "quantifier": "every list of fewer than 2^53-1 hashes (beyond that the float division in the code loses precision)", "why_tests_cant": "unbounded lists and mutable sharing", "anchors": ["neocore/Cryptography/MerkleTree.py:MerkleTree.__init__,__Build,MerkleTreeNode"]}
{"id": "C57", "title": "ToHashArray returns each leaf hash once", "statement": "ToHashArray of a freshly built tree contains exactly the distinct leaf hashes, each once (duplicates are lost, order is unspecified), so it is shorter than the list of leaves exactly when two leaves are equal.", "quantifier": "every list of fewer than 2^53-1 hashes (beyond that the float division in the code loses precision)", "why_tests_cant": "unbounded lists", "anchors": ["neocore/Cryptography/MerkleTree.py:ToHashArray,__DepthFirstSearch"]}
{"id": "C58", "title": "Trim only looks at the first two flags", "statement": "Trim(flags) either removes the children of every inner node (when the first two flags are zero or missing), after which ToHashArray is just the root hash, or changes nothing at all, whatever the other flags are; the root hash is never changed; a second Trim changes nothing. _TrimNode at the root with index i looks at flags i*2^(Depth-1) and the next one only and raises IndexError, changing nothing, when they are missing.", "quantifier": "every tree and every flag string", "why_tests_cant": "unbounded trees times flags", "anchors": ["neocore/Cryptography/MerkleTree.py:Trim,_TrimNode"]}
{"id": "C59", "title": "Exactly which lists of hashes have the same Merkle root", "statement": "Two different lists of the same length with the same root exhibit a collision of double SHA-256; but a list of odd length n>1 and the list with its last element repeated have the same root, and so do a list of at least two hashes and the shorter list of the hashes of its first inner row. Exactly: repeating the last 2^k hashes of a list whose length is a larger odd multiple of 2^k keeps the root; doing so until the length is a power of two is the filling of a list; and, collisions of double SHA-256 aside, two lists have the same root if and only if one of them and some row of the tree over the other have the same filling.", "quantifier": "every pair of lists of fewer than 2^53-1 UInt256", "why_tests_cant": "all pairs of lists", "anchors": ["neocore/Cryptography/MerkleTree.py:ComputeRoot"]}
{"id": "C60", "title": "Public key encoding round-trips", "statement": "For every point of secp256r1 other than infinity, encode_point(compressed) and encode_point(uncompressed) are the SEC 1 encodings and decode_from_hex maps both back to the point, and Serialize (compressed) followed by Deserialize_Secp256r1 gives the point back; infinity is written as one zero byte and read back as infinity; an uncompressed Serialize cannot be read back (NotImplementedError). ToString and ToBytes give the hexadecimal digits of the hexadecimal digits (132 characters), which decode_from_hex refuses.", "quantifier": "every point of the curve", "why_tests_cant": "2^256 points; rests on the primality of the field", "anchors": ["neocore/Cryptography/ECCurve.py:encode_point,decode_from_hex,decompress_from_curve,sqrtCQ,Serialize,Deserialize_Secp256r1,decode_from_reader,ToString,ToBytes"]}
{"id": "C61", "title": "Decoding a compressed key yields a curve point or raises", "statement": "decode_from_hex of a compressed 33-byte key returns a point that satisfies the curve equation with the requested parity and x exactly as given, and raises TypeError iff x^3+ax+b is not a square modulo p; a wrong length raises; a leading 00 byte gives infinity whatever follows; an empty argument is an IndexError, and text passed with unhex=False is never decoded; x values from p to 2^256-1 are accepted, so one point can have two encodings.", "quantifier": "every 33-byte string", "why_tests_cant": "2^257 strings", "anchors": ["neocore/Cryptography/ECCurve.py:decode_from_hex,decompress_from_curve,sqrtCQ"]}
{"id": "C62", "title": "Uncompressed keys are checked only on request", "statement": "decode_secp256r1 with check_on_curve returns only points on the curve; decode_from_hex of an uncompressed key, and FromBytes_Secp256r1 of 96/104 bytes, accept any pair of 256-bit numbers; FromBytes_Secp256r1 of 33, 64, 65 or 72 raw bytes always raises, other lengths give None; given text it never decodes anything: it raises for these six lengths and returns None for all others, also for the 66 or 130 hexadecimal digits of a key.", "quantifier": "every byte string and text", "why_tests_cant": "all byte strings", "anchors": ["neocore/Cryptography/ECCurve.py:decode_secp256r1,decode_from_hex,FromBytes_Secp256r1"]}
{"id": "C63", "title": "Finite field arithmetic", "statement": "For prime p, sums, differences, products and quotients of field values computed by the operators are the canonical residues of the mathematical results; division by a value in 1..p-1 inverts multiplication; division by 0 silently gives 0, division by the non-canonical zero p returns the numerator, division by a negative value gives the negated quotient; negation of 0 gives the non-canonical value p.", "quantifier": "every prime p, all residues", "why_tests_cant": "all primes and residues", "anchors": ["neocore/Cryptography/ECCurve.py:FiniteField,GCD,modinv"]}
{"id": "C64", "title": "GCD satisfies Bezout and modinv inverts", "statement": "GCD(a,b) terminates for all integers and returns (g,c,d) with a*c+b*d=g and |g| the greatest common divisor; modinv(x,p) inverts x modulo p for 0<x<p prime; for negative x not divisible by p it always returns the inverse with the wrong sign.", "quantifier": "all integers", "why_tests_cant": "infinitely many", "anchors": ["neocore/Cryptography/ECCurve.py:GCD,modinv"]}
{"id": "C65", "title": "Point addition stays on the curve", "statement": "For every odd prime modulus and every curve, adding two canonical points of the curve gives a canonical point of the curve, the chord-and-tangent sum; addition is commutative, infinity is neutral, P + (-P) is infinity when P is not infinity; but P - infinity is never P (for P not infinity and b not 0 modulo p): it is infinity, minus P or a pair off the curve, because the negated infinity is no longer recognised.", "quantifier": "every curve over every prime field, all points", "why_tests_cant": "all curves and points", "anchors": ["neocore/Cryptography/ECCurve.py:EllipticCurve.add,sub,neg,isoncurve,iszero"]}
{"id": "C66", "title": "Scalar multiplication is not repeated addition", "statement": "On Python 3 point * k halves k as a float and counts every fraction as a set bit: for 0<|k|<2^53 it adds 2^i*P for every i from the number of trailing zeros of k up to 1074+n (n the number of round-half-even halvings that bring |k| to 0), whatever the digits of k are. So P*(-k)=P*k, P*17=P*19 on every curve, P*1 is not P in general, at least 1000 points are always added, and |k|>=2^1025 raises OverflowError; P*0 is infinity, as it should be.", "quantifier": "every curve, every point, every nonzero scalar below 2^53 (every scalar for the shape of the sum)", "why_tests_cant": "the loop runs over a thousand float halvings", "anchors": ["neocore/Cryptography/ECCurve.py:EllipticCurve.mul"]}
{"id": "C67", "title": "Ordering of points ignores y", "statement": "<, > on ECPoints compare x only: for points that differ only in y neither P<Q nor Q<P nor P<=Q nor Q<=P holds, so <= is not total; otherwise the order is that of x.", "quantifier": "all pairs of points", "why_tests_cant": "all pairs", "anchors": ["neocore/Cryptography/ECCurve.py:ECPoint.__lt__,__gt__,__le__,__ge__"]}
{"id": "C68", "title": "crack1/crack2 recover the private key", "statement": "For prime n, crack1 on (r,s,m,k) with s=(m+x*r)/k, r and k invertible returns x; crack2 on two such signatures with the same k returns (k,x) when the differences are passed as field values or s1>s2; with plain integers s1<s2 it returns -k as the secret number.", "quantifier": "every prime n and all values", "why_tests_cant": "all values", "anchors": ["neocore/Cryptography/ECCurve.py:ECDSA.crack1,crack2"]}
{"id": "C69", "title": "sqrtCQ returns a square root or None", "statement": "For a prime p = 3 mod 4 and 0<=v<p, sqrtCQ(v,p) is a square root of v in range if v is a square and None otherwise; for p = 1 mod 4 it never returns a root.", "quantifier": "every prime p, every v", "why_tests_cant": "all primes and residues", "anchors": ["neocore/Cryptography/ECCurve.py:sqrtCQ"]}
{"id": "C70", "title": "next_random_integer does not respect its bit size", "statement": "next_random_integer(b) for b>0 masks the least significant byte instead of the most significant: its result is 256*hi + (last byte mod 2^(b mod 8)) with hi the number formed by the other b//8 random bytes, so for every b>=8 it can be 2^b or more; a negative size raises; 0 gives 0.", "quantifier": "every size below 2^53 bits and every random source", "why_tests_cant": "all random outcomes", "anchors": ["neocore/Cryptography/ECCurve.py:next_random_integer"]}
{"id": "C71", "title": "Key pairs are built only from 32, 96 or 104 bytes", "statement": "KeyPair(k) raises ValueError for bytes whose length is not 32, 96 or 104 and TypeError for values that are not bytes (ValueError for text of another length); the private key is the last 32 bytes; for 32 bytes the public key is the curve library's answer for P-256 and a refusal becomes a plain Exception; for 96/104 bytes it is the 64 bytes before the last 32, taken without any check; PublicKeyHash is the script hash of the bare compressed key.", "quantifier": "every byte string", "why_tests_cant": "all byte strings", "anchors": ["neocore/KeyPair.py:KeyPair.__init__"]}
{"id": "C72", "title": "Command line conversions are inverse", "statement": "cli.scripthash_to_address of the 0x-prefixed big-endian or the bare little-endian hex of any 20-byte script hash gives the address that cli.address_to_scripthash maps back to that script hash; malformed text raises ConversionError only. The accepted texts are exactly 40 hexadecimal digits of either case, with or without 0x, and the address is the Base58Check of 23 and the hash.", "quantifier": "every script hash / every string", "why_tests_cant": "2^160 script hashes", "anchors": ["neocore/bin/cli.py:scripthash_to_address,address_to_scripthash"]}
{"id": "C73", "title": "_lucas_sequence computes the Lucas sequences", "statement": "For odd n>=3 and P^2 != 4Q, _lucas_sequence(n,P,Q,k) returns (U_k mod n, V_k mod n) of the Lucas sequences for every k>=0 (in all three parameter branches); n<2, k<0 or a zero discriminant raise.", "quantifier": "all n, P, Q, k", "why_tests_cant": "unbounded k", "anchors": ["neocore/Cryptography/ECCurve.py:_lucas_sequence"]}
{"id": "C74", "title": "VerifySignature's outcome is the curve library's verdict", "statement": "VerifySignature's outcome is the ecdsa package's verdict on a 64-byte key and on the bytes the message stands for (hex decoded when unhex is set and it is hex, bytes as they are otherwise, text as UTF-8 with unhex=False), an exception of that package counting as False. An ECPoint is handed over as its two 32-byte coordinates; once P-256 is selected the 33-byte compressed key of a point of the curve gives the same outcome as the ECPoint and as the 64 bytes, and a 33-byte key whose x belongs to no point is rejected. A message that stands for no bytes gives False. The only exceptions are OverflowError for a coordinate outside 0..2^256-1, UnicodeEncodeError for text that UTF-8 cannot encode with unhex=False, and a plain Exception for 33 bytes not starting with 02 or 03.", "quantifier": "every message, signature, key and state", "why_tests_cant": "all inputs", "anchors": ["neocore/Cryptography/Crypto.py:VerifySignature"]}
{"id": "C75", "title": "Floating point numbers in streams", "statement": "WriteDouble followed by ReadDouble returns every float other than NaN unchanged (infinities and the sign of zero included), through the 8-byte IEEE 754 binary64 encoding in the requested byte order; every 8 bytes are read as the number they encode and written back identically unless they encode a NaN. WriteFloat rounds to the nearest single-precision number (ties to even) and writes its 4-byte encoding, so a float survives WriteFloat/ReadFloat if and only if it is a single-precision number; numbers that round beyond the single-precision range raise OverflowError and write nothing. Ints are written as the nearest float (exact up to 2^53, 2^24 for WriteFloat), an int beyond the float range or a non-number raises struct.error and writes nothing; reading with too few bytes left raises struct.error.", "quantifier": "every float, every int, every 4- and 8-byte string, both byte orders, every stream", "why_tests_cant": "2^64 floats; rounding boundaries", "anchors": ["neocore/IO/BinaryWriter.py:WriteFloat,WriteDouble", "neocore/IO/BinaryReader.py:ReadFloat,ReadDouble"]}
{"id": "C76", "title": "A truncated public key in a stream is not noticed", "statement": "Deserialize_Secp256r1 (and ECPoint.Serialize's counterpart in general) does not raise when fewer than 32 bytes follow a compression flag: it decodes the remaining bytes, right-aligned, as the x coordinate, and at end of stream it returns infinity.", "quantifier": "every stream with a truncated key at its end", "why_tests_cant": "the set of truncated streams is unbounded and the outcome depends on whether the remaining bytes happen to form an x coordinate on the curve", "anchors": ["neocore/Cryptography/ECCurve.py: EllipticCurve.decode_from_reader, ECDSA.Deserialize_Secp256r1", "neocore/IO/BinaryReader.py: ReadByte, ReadBytes"]}
{"id": "C77", "title": "secp256r1() objects cannot sign, verify or recover keys", "statement": "For every argument, sign, verify and findpk of the ECDSA object returned by secp256r1() raise (TypeError for integer arguments: the order passed is a field object), and findpk2 raises on every curve (an int is divided by a field value). Where the order is a number (as on secp256k1), findpk with 0<r<n gives the point Q with Q + G*(m/r) = R*(s/r) for the decompressed point R, * being what C86 says.", "quantifier": "every message, key, secret, signature and flag", "why_tests_cant": "the claim is that no argument whatsoever makes the call return", "anchors": ["neocore/Cryptography/ECCurve.py: ECDSA.sign, verify, findpk, findpk2, secp256r1"]}
{"id": "C78", "title": "When a signature made by the library verifies", "statement": "On the curve object of secp256k1(): for every message number m, private key x and secret k for which calcpub and sign return (with s nonzero), verify with that public key returns a Boolean, and it is true exactly if M(m/s) + M(r/s)*M(x) equals M(k) or -M(k) modulo the group order, where M(u) is the multiplier by which a scalar u really acts on points (C86; M(u) = u would make it always true). Consequently there are a message, a private key in range and a secret in range on secp256k1 whose signature is rejected; the same on a curve of order 11.", "quantifier": "every message, private key and secret; existence of a rejected one", "why_tests_cant": "it characterises the accepted signatures for all 2^256 keys and refutes a universal claim of the docstring of verify", "anchors": ["neocore/Cryptography/ECCurve.py: ECDSA.calcpub, sign, verify"]}
{"id": "C79", "title": "decompress raises to a rounded exponent", "statement": "EllipticCurve.decompress(x, flag) always returns (x, w) or (x, p-w), chosen by whether the parity of w is the flag, for w=v^e mod p, v=x^3+ax+b with e the float-rounded (p+1)/4: 2^254 on secp256k1 and 2^254-2^222 on secp256r1 instead of (p+1)/4; on secp256k1 the abscissa 1 of a genuine point is decompressed to a pair that is not on the curve, for either flag.", "quantifier": "every x, every flag, both named curves", "why_tests_cant": "quantifies over all 2^256 abscissas", "anchors": ["neocore/Cryptography/ECCurve.py: FiniteField.sqrt, FiniteField.pow, EllipticCurve.decompress"]}
{"id": "C80", "title": "Which curve the process uses", "statement": "KeyPair and Crypto select the same curve, NIST P-256, the one of ECDSA.secp256r1(), whose modulus is prime and whose base point satisfies its equation. After any sequence of calls the curve that the static Crypto.Sign and Crypto.VerifySignature use is P-256 if and only if some earlier call constructed a KeyPair (even unsuccessfully), went through Crypto.Default(), exported a WIF, or imported an encrypted key far enough to try a candidate key; otherwise it is still Bitcoin's secp256k1. Before that, no signature whatsoever verifies under the 33-byte compressed key of the private key 1, although under the same key as an ECPoint the verdict is the right one.", "quantifier": "every history of calls, every message and signature", "why_tests_cant": "process-wide state: depends on everything called earlier in the process; the tests import and construct KeyPairs first", "anchors": ["neocore/Cryptography/Crypto.py:SetupSignatureCurve,Default,CryptoInstance.__init__,VerifySignature,Sign", "neocore/KeyPair.py:setup_curve,__init__,Export,PrivateKeyFromNEP2"]}
{"id": "C81", "title": "Signatures are 64 bytes over the SHA-256 of the decoded message and verify", "statement": "Crypto.Sign returns the bitcoin package's two numbers r and s, 32 big-endian bytes each, for the SHA-256 of the hex-decoded message under the curve selected at that moment, and raises ValueError (binascii.Error) or TypeError for a message that is not hexadecimal. After KeyPair(k), signing and then verifying under the key pair's PublicKey, its 64-byte form or (for a point of P-256) its 33-byte form gives exactly the ecdsa package's verdict on that r, s for the same message bytes and public key.", "quantifier": "every message, key and state", "why_tests_cant": "2^256 keys and all messages; the answer depends on the history of the process", "anchors": ["neocore/Cryptography/Crypto.py:Sign,VerifySignature", "neocore/KeyPair.py:__init__"]}
{"id": "C82", "title": "Hashing helpers and script hashes", "statement": "bin_dbl_sha256, Crypto.Hash256 and Crypto.Default().Hash256 return the 32 bytes of SHA-256 applied twice and double_sha256 the same as 64 hexadecimal characters; bin_hash160Bytes, Crypto.Hash160Bytes, redeem_to_scripthash and Crypto.Default().Hash160 return the 20 bytes of RIPEMD-160 of SHA-256, but the static Crypto.Hash160 and bin_hash160 return them as 40 hexadecimal characters. Crypto.ToScriptHash(data) returns a UInt160 of RIPEMD-160(SHA-256(d)) where d is the hex-decoded data if data has at least two characters and unhex is true, and data itself if it has fewer than two bytes or unhex is false; data of two or more bytes that is not hexadecimal raises binascii.Error, text that would be hashed undecoded raises TypeError.", "quantifier": "every message (bytes, bytearray or text), both values of unhex, arbitrary hash functions with the right digest sizes", "why_tests_cant": "all inputs; the decision depends on length and content", "anchors": ["neocore/Cryptography/Helper.py:double_sha256,bin_dbl_sha256,bin_hash160,bin_hash160Bytes,redeem_to_scripthash", "neocore/Cryptography/Crypto.py:Hash160,Hash160Bytes,Hash256,ToScriptHash,CryptoInstance"]}
{"id": "C83", "title": "Printing amounts", "statement": "Fixed8.ToString and ToNeoJsonString produce, for every amount whose value divided by 10^8 fits a float, text that float() reads as the float nearest to that quotient (OverflowError otherwise). Every amount from 0.0001 to 67108864 (2^26) units prints as a plain decimal of exactly its value, with at most 8 digits after the point and no superfluous zeros; smaller ones print in exponent form (e-05 .. e-08), again exactly; zero prints as 0.0. Different amounts up to 2^26 units print differently; 2^26 is the limit (67108864.00000001 and 67108864.00000002 print the same). Up to 10^15 units the text is still a plain decimal with the fewest digits after the point that reads as the same float, and the nearest such. ToNeoJsonString of a whole amount of up to 10^15 units is the bare integer; for other amounts up to 2^26 units it is the same as ToString. Parsing either text with TryParse returns the amount or one satoshi closer to zero (below 2^52 satoshi).", "quantifier": "every int amount (including beyond 64 bits)", "why_tests_cant": "every amount; rounding boundaries of the decimal/binary conversion", "anchors": ["neocore/Fixed8.py:ToString,ToNeoJsonString,__str__,TryParse"]}
{"id": "C84", "title": "The np-utils command", "statement": "np-utils --address-to-scripthash A, for any Base58Check text A (trailing white space allowed by some base58 releases), prints exactly three lines: the bytes between version byte and checksum in big-endian hex after 0x, in little-endian hex, and as a Python bytes literal that denotes exactly those bytes; status 0. Text that is Base58 but has a wrong checksum prints one message, status 1; other text prints nothing and dies of an uncaught exception (status 1). --scripthash-to-address with 40 hex digits of either case, big-endian after 0x or little-endian bare, prints the address as the last line (with two lines about the conversion in the second case); any other text prints 'Wrong format' last, status 1. What the first command prints for an address, fed to the second, prints that address. --create-wallet prints a JSON object with the WIF of the random key and the address of its public key; importing the WIF returns the key. Options given together are served in this order, each as if alone, up to the first failure; status 0 exactly if main runs to its end; no arguments: status 1. The bytes literal is in single quotes unless the bytes contain a single and no double quote, and is the shortest one in those quotes.", "quantifier": "every command line (option values), every random key, every hash function with the right digest lengths, both base58 behaviours", "why_tests_cant": "unbounded texts and combinations of options", "anchors": ["neocore/bin/cli.py:main,address_to_scripthash,scripthash_to_address,create_wallet"]}
{"id": "C85", "title": "Point addition is an abelian group law", "statement": "On every curve object over an odd prime field with nonzero discriminant and b, the + of points maps points of the curve (in canonical coordinates, (0,0) standing for infinity) to points of the curve, is associative and commutative, has (0,0) as neutral element and an inverse for every point; hence it is cancellative, and - undoes + (for a subtrahend with y different from 0). secp256r1 and secp256k1 are such curves and their base points are points of them.", "quantifier": "every such curve and all points P, Q, R", "why_tests_cant": "associativity over all triples of points of all curves", "anchors": ["neocore/Cryptography/ECCurve.py: EllipticCurve.add, sub, neg, point, ECPoint"]}
{"id": "C86", "title": "What point * scalar computes", "statement": "Because the loop halves the scalar with float division, multiplying any point of any such curve by a scalar k with 0 < |k| < 2^53 and 2^t the largest power of two dividing k gives the (2^(1074+n) - 2^t)-fold sum of the point, n being the number of round-half-even halvings that take |k| to 0; for |k| < 2^256 the result is the (k mod 2 + 2(2^s - 2^a))-fold sum for some a <= 255, 1074 <= s <= 1331 that depend on k only. So (P+Q)*k = P*k + Q*k, and (P*j)*k = (P*k)*j: two parties who exchange public points agree on a shared point.", "quantifier": "every curve, point and scalar", "why_tests_cant": "all points of all curves and all scalars", "anchors": ["neocore/Cryptography/ECCurve.py: EllipticCurve.mul"]}
{"id": "C87", "title": "Public keys are wrong for all private keys but two", "statement": "The base point of secp256r1 (secp256k1) has the prime order n of the standard. For no private key k in 1..n-1 of secp256r1 is base*k the k-fold sum of the base point; on secp256k1 this holds for exactly two values of k.", "quantifier": "every private key in 1..n-1", "why_tests_cant": "ranges over 2^256 keys", "anchors": ["neocore/Cryptography/ECCurve.py: EllipticCurve.mul, ECDSA.calcpub, secp256r1, secp256k1"]}
{"id": "C88", "title": "There are at most 132096 public keys", "statement": "For every signature object over a curve as in C85, calcpub maps all private keys in 1..2^256-1 into a set of at most 132096 points; for example 17 and 19 have the same public key on every curve.", "quantifier": "every curve object, every private key", "why_tests_cant": "a bound on the image of 2^256 inputs", "anchors": ["neocore/Cryptography/ECCurve.py: ECDSA.calcpub, EllipticCurve.mul"]}
{"id": "C89", "title": "What point / number computes", "statement": "Dividing a point by 0 raises ZeroDivisionError, by a field value or text TypeError. Dividing by a nonzero integer a of any size gives the (2^N - 1)-fold sum of the point with N <= 1076 depending on a only: N = 1075 - j if |a| = 2^j (infinity if j > 1075), and N is 1074 - j or 1075 - j if |a| lies between 2^j and 2^(j+1), j <= 1000. Of the divisors in 1..n-1 the quotient of the base point is right (a times it is the base point) for exactly two on secp256r1 and exactly one on secp256k1.", "quantifier": "every curve, point and divisor", "why_tests_cant": "all divisors up to 2^256", "anchors": ["neocore/Cryptography/ECCurve.py: EllipticCurve.div, mul"]}
{"id": "C90", "title": "Fixed8 amounts built from BigIntegers", "statement": "A Fixed8 can hold a BigInteger (Fixed8(BigInteger(n))). Sums, differences, products, floor quotients, remainders and comparisons then have the same numbers as with ints. But ToString and ToNeoJsonString print the whole units rounded down, without a point, so the fraction is lost and all amounts with the same whole units print the same; Ceil, Floor and ToInt all round down (Ceil of a non-whole amount is less than the amount), without size limit; / rounds down instead of towards zero, exactly for every size. The results of + - * // hold a BigInteger exactly if the left operand does, those of unary -, / and % never, so x+0 and 0+x, or x and -(-x), are equal amounts that print differently. With ints everything is as in C39-C42 and C83; FromDecimal(BigInteger) is an ordinary amount.", "quantifier": "all integers n and all combinations of int and BigInteger operands", "why_tests_cant": "infinitely many amounts; two classes meeting through operator dispatch", "anchors": ["neocore/Fixed8.py: ToString, ToNeoJsonString, Ceil, Floor, ToInt, __truediv__", "neocore/BigInteger.py: __truediv__"]}
{"id": "C91", "title": "WriteVarString with an encoding other than UTF-8", "statement": "With encoding 'ascii' or 'latin-1' every encodable text is written as its length and one byte per character and is read back by ReadVarString; a text that cannot be encoded raises UnicodeError and writes nothing. With 'utf-16', 'utf-16-le' or 'utf-16-be' every text with at least one encoded byte (and every non-empty bytes value) appends only the variable-length size and then raises ValueError, leaving a length without data in the stream; only '' without byte order mark is written. With 'utf-32' and its variants the call raises UnicodeError and writes nothing, for every non-empty value. 'utf-8' is the default behaviour of C09.", "quantifier": "every text and bytes value, these nine encodings", "why_tests_cant": "for all texts, including what is left in the stream by the failing call", "anchors": ["neocore/IO/BinaryWriter.py: WriteVarString, WriteBytes"]}
{"id": "C92", "title": "The integer writers and arguments that are not plain ints", "statement": "WriteInt8 .. WriteUInt64 with a bool or a BigInteger do exactly what they do with the int it stands for; with any other type (a text of digits, bytes, None, ...) they raise struct.error and leave the stream as it was.", "quantifier": "all eight writers, both byte orders, every argument and stream", "why_tests_cant": "all arguments and stream contents", "anchors": ["neocore/IO/BinaryWriter.py: WriteInt8 .. WriteUInt64, pack"]}
{"id": "C93", "title": "Reading from a stream that fails or delivers short", "statement": "Whatever reads of the underlying stream come short or raise (a socket, an unbuffered file, a timeout), a message read only with the fixed-width integer, bool, char, Fixed8, float, double, UInt160, UInt256, SafeReadBytes(n>=0) and ReadString calls is, if no exception is raised, exactly the message an undisturbed BytesIO would have given, at the same position. Every other call is unprotected: for ReadByte, ReadBytes, ReadVarInt, ReadVarBytes, ReadVarString, ReadFixedString, ReadHashes, ReadSerializableArray and ECDSA point decoding there is always one faulty read that makes it return 0, empty data, no items or the point at infinity without an exception; an exception of the stream (of any kind) at a length or prefix byte is always swallowed and reported as 0, no items or infinity. A short ReadBytes returns the short prefix and leaves the rest for the next call. Read2000256List is unprotected too: one empty read makes its first hash empty and shifts all the others by one place.", "quantifier": "every sequence of calls, every stream content and every schedule of full, short and failing reads", "why_tests_cant": "all fault schedules and histories; unit tests only use BytesIO", "anchors": ["neocore/IO/BinaryReader.py: unpack, ReadByte, ReadBytes, SafeReadBytes, ReadVarInt, ReadVarBytes, ReadHashes, ReadSerializableArray", "neocore/Cryptography/ECCurve.py: EllipticCurve.decode_from_reader, ECDSA.Deserialize_Secp256r1"]}
{"id": "C94", "title": "Writing to a stream that loses data or crashes", "statement": "Every sequence of writer calls makes the same write calls on the stream, in the same order and with the same outcome, whatever the stream answers, as long as the stream raises nothing. If the stream fails after any number of bytes (crash, disk full) it holds exactly that prefix of the complete message and the stream's exception reaches the caller, even for failures in the middle of a field. Short writes (raw unbuffered streams) are never noticed: all calls report what they would report anyway while data, possibly all of it, is missing. A message consisting of the checked fields of C93 that was torn anywhere raises when read back; one with variable-length fields may be accepted.", "quantifier": "every sequence of writer calls, every crash point, every pattern of short writes", "why_tests_cant": "all crash points and histories", "anchors": ["neocore/IO/BinaryWriter.py: WriteByte, WriteBytes, pack, WriteVarInt, WriteVarBytes, WriteVarString, WriteFixedString, Write2000256List, WriteHashes, WriteSerializableArray"]}
{"id": "C95", "title": "random_key depends on all its sources", "statement": "Whatever os.urandom, random.randrange and the clock deliver, random_key returns 64 lower-case hexadecimal digits: the SHA-256 digest of the text made of the bytes literal of the operating system's randomness, the decimal digits of the random number and those of the time in whole microseconds. Two calls with different operating system randomness give different keys unless SHA-256 has a collision, whatever the other two sources do; with a clock between September 2001 and November 2286 the same holds for all three sources. Outside that range the two numbers run together (number 11 at 2 s and number 1 at 12 s give the same key). An infinite or NaN clock raises.", "quantifier": "all values of the three sources", "why_tests_cant": "random sources; injectivity over all pairs of values", "anchors": ["neocore/Cryptography/Helper.py: random_key"]}
{"id": "C96", "title": "The settable address version", "statement": "For every value assigned to Helper.ADDRESS_VERSION: between 0 and 255 ToAddress, scripthash_to_address and KeyPair.GetAddress give the Base58Check text of that byte and the hash, addresses made under different versions (or of different hashes) never coincide, and the command line's address_to_scripthash gives the hash back whatever the version; any other int makes them raise ValueError (ConversionError from the command line). isValidPublicAddress does not follow the setting: it always accepts addresses made with 23 and refuses every address made with anything but 22, 23 or 24. A NEP-2 text opens under the version it was written with; under another one the import raises ValueError as for a wrong passphrase, unless the two addresses have the same 4-byte checksum. With the shipped value everything is as in the other properties.", "quantifier": "all int versions, script hashes, keys, passphrases, hash functions of the right length and key libraries", "why_tests_cant": "all pairs of versions; injectivity; one value is tested", "anchors": ["neocore/Cryptography/Helper.py: ADDRESS_VERSION, scripthash_to_address", "neocore/Cryptography/Crypto.py: ToAddress", "neocore/KeyPair.py: GetAddress, ExportNEP2, PrivateKeyFromNEP2", "neocore/Utils.py: isValidPublicAddress", "neocore/bin/cli.py: address_to_scripthash, scripthash_to_address"]}
{"id": "C97", "title": "Values of several field objects", "statement": "FiniteField.Value operators (+, -, *, /, == and their reflected forms) with an int, hexadecimal text or a Value of any field object on the other side give a Value of the left (or own) field in 0..p-1 congruent to the result; only non-hexadecimal text raises (ValueError). Powers likewise, negative exponents exactly when invertible (and on an interpreter that allows them). Called directly, field.add and its siblings answer False for values of two field objects even of equal modulus. Equality is an equivalence among values of one modulus whatever objects made them, and not even symmetric across moduli. str(value) is 0x followed by the DECIMAL digits: injective, but from 10 on it denotes a larger number when read as the hexadecimal it announces. iszero() looks at the stored integer, so -Value(0), which stores p, equals 0 but is not zero.", "quantifier": "all moduli, field objects, stored integers and operands", "why_tests_cant": "all pairs of field objects, operand types and integers", "anchors": ["neocore/Cryptography/ECCurve.py: FiniteField, FiniteField.Value, samefield"]}
{"id": "C98", "title": "Points of several curve objects", "statement": "Points made by different EllipticCurve objects with the same equation (for example by several ECDSA.secp256r1() calls) are interchangeable: the sum, negation and multiples are the chord-and-tangent ones, are again points of one of these objects, and every result (sum, difference, negative, multiple, ==, <, isoncurve, text) has the same numbers whichever object the operands came from. Points of different curves are added and compared without complaint by reading the right operand's numbers on the left operand's curve, so that the sum (and difference) can lie on neither curve and depends on the order. str(point) is '(' x ',' y ')' and distinguishes all coordinates.", "quantifier": "all curves, curve objects, points and multipliers", "why_tests_cant": "all pairs of objects and points", "anchors": ["neocore/Cryptography/ECCurve.py: EllipticCurve, ECPoint, samefield"]}
{"id": "C99", "title": "Key derivation", "statement": "KeyPair(k) for 32 bytes standing for a number d below the group order n has PublicKey d*G, the d-fold sum of the P-256 base point under the group law of C85, and PrivateKey k; for d >= n it raises Exception('Could not determine public key'). So PublicKey is always a point of the curve, different private keys have different public keys, and public keys add as private keys do modulo n. For 0 < d < n GetAddress succeeds and two keys with one address are equal or exhibit a collision of RIPEMD160(SHA256); NEP-2 export and import return the key. The all-zero key is accepted: its public key is the point at infinity, and GetAddress and ExportNEP2 raise binascii.Error.", "quantifier": "all 32-byte keys (bytes or bytearray), pass phrases and hash functions", "why_tests_cant": "2^256 keys, and the group law behind the double-and-add in Jacobian coordinates", "anchors": ["neocore/KeyPair.py: __init__, setup_curve, GetAddress, ExportNEP2", "requirements.txt: bitcoin==1.1.42 (privkey_to_pubkey, fast_multiply, jacobian_add, jacobian_double, inv)"]}
{"id": "C100", "title": "Signatures made by Sign", "statement": "Once P-256 is selected, Sign(message, key) for hexadecimal text or bytes and a private key of 32 bytes, their hexadecimal text or an int d returns 64 bytes r, s: r is the x coordinate of k*G for the nonce k that is the first candidate of RFC 6979 for key and digest (the digest is not reduced modulo n first, and no further candidate is tried if k is 0 or at least n), s is at most n/2 and s*k = +-(z + r*d) modulo n for the SHA-256 digest z. Signing with the key of a KeyPair and verifying under its PublicKey as ECPoint or 33-byte key returns True exactly when 0 < r < n, s != 0 and both coordinates of the public key are below n, else False.", "quantifier": "all messages, private keys in the accepted forms, and hash functions", "why_tests_cant": "all messages and keys; needs the group law on both libraries' arithmetic", "anchors": ["neocore/Cryptography/Crypto.py: Sign, VerifySignature", "requirements.txt: bitcoin==1.1.42 (ecdsa_raw_sign, deterministic_generate_k, decode_privkey)", "requirements.txt: ecdsa==0.13 (VerifyingKey.from_string, verify)"]}
{"id": "C101", "title": "Which signatures verify", "statement": "VerifySignature with a 64-byte key or an ECPoint (in any state), or with a 33-byte key of a curve point once P-256 is selected, returns without raising whether: the signature has 64 bytes r, s with 0 < r, s < n; the key is a point of P-256 other than infinity, of order n, with both coordinates below n; and the x coordinate of (z/s)G + (r/s)Q is r modulo n (the point not infinity). So a curve point with a coordinate >= n is refused for every signature; (r, s) is accepted exactly if (r, n-s) is, so that every signature has a second form; and one signature fits, under one key, messages of at most four digests modulo n, at most two unless r < p - n.", "quantifier": "all byte strings as key and signature, all messages, all states", "why_tests_cant": "forgeries and odd keys cannot be enumerated", "anchors": ["neocore/Cryptography/Crypto.py: VerifySignature", "requirements.txt: ecdsa==0.13 (keys.py, ecdsa.py, ellipticcurve.py, numbertheory.py)"]}
{"id": "C102", "title": "A write overwrites exactly its own bytes, wherever the stream stands", "statement": "For every writer call (including floats, arrays of classes that behave alike, and calls that raise) the outcome, the return value and the bytes put into the stream depend on the arguments only, not on the stream: on a stream positioned anywhere, after any seek, exactly those bytes replace what was at the position, every other byte stays, a gap beyond the old end is filled with zeros, and the position moves by their number. So everything said about appending (C01-C25) holds at every position; the same for any sequence of calls. Going back to a field of a fixed-width kind (integers, bool, byte, char, fixed string, Fixed8, UInt160/256) of a written message and writing another value there makes the message read back with that field changed and all others intact; a shorter encoding leaves the tail of the old one behind.", "quantifier": "every writer call and sequence of calls with every argument, every stream content and position, every message, field and pair of values", "why_tests_cant": "all stream contents and positions, all call sequences and messages", "anchors": ["neocore/IO/BinaryWriter.py: WriteByte, WriteBytes, pack and every Write* method"]}
{"id": "C103", "title": "Fixed8 next to other objects", "statement": "The six comparisons and the arithmetic operators of two Fixed8 are those of their values, in the order they are written. With an int, float, Decimal, BigInteger or None on the other side every arithmetic operator and every comparison raises, == and != included: AttributeError with the Fixed8 on the left, and with it on the right TypeError for arithmetic and AttributeError for comparisons. An object of an unrelated class with an attribute called value is silently taken for an amount. Every Fixed8 is truthy, Zero() included, and none can be hashed. `f in list` finds an equal amount but raises if an object without value comes before it; sum(list, Fixed8.Zero()) is the exact sum in any order, while sum(list) raises TypeError unless the list is empty.", "quantifier": "every amount, operator, operand object and list", "why_tests_cant": "all values, operators and lists", "anchors": ["neocore/Fixed8.py: __add__ ... __le__"]}
{"id": "C104", "title": "ReadSerializableArray's class name", "statement": "ReadSerializableArray(name, max) takes the text before the last dot as module and the text after it as class. A name without a dot or with nothing before its only dot raises ValueError, a relative module TypeError, and a module or attribute that cannot be found its import error, always before anything is read. If the class can be made without arguments the array is read as in C17/C18. If it cannot (Fixed8, KeyPair), if the name is not a class, or if its objects have no Deserialize (BigInteger), the result is the empty list whatever count is announced, without an error, and the items stay unread. SerializableMixin items, whose methods do nothing, consist of the count alone; arrays of UInt160/UInt256 beyond the end of the data have the announced number of items with empty data, from at most nine bytes.", "quantifier": "every name, set of importable modules, class, stream and max", "why_tests_cant": "all names, environments and streams", "anchors": ["neocore/IO/BinaryReader.py: ReadSerializableArray", "neocore/IO/Mixins.py: SerializableMixin"]}
{"id": "C105", "title": "NEP-2 encryption is AES-256 under an scrypt key, and can always be undone", "statement": "With AES, scrypt and the key derivation put in as the standards define them (only SHA-256/RIPEMD-160's digest lengths and Unicode normalization are left open): ExportNEP2 of every private key from 1 to n-1 and every passphrase of at least two characters writes the Base58Check text of 01 42 E0, the address hash, and the AES-256-ECB encryption (FIPS 197), under the second half of scrypt(N=16384, r=8, p=8, 64 bytes) of the UTF-8 passphrase salted with the address hash, of the private key xored with the first half; and PrivateKeyFromNEP2 with that passphrase gives the key back. Opening any Base58Check text of 58 characters with any passphrase decrypts the last 32 bytes to one candidate number: 0 raises binascii.Error, n or more a plain Exception, and otherwise the candidate is returned if its address has the stored hash, and ValueError raised if not. scrypt is RFC 7914's function for all parameters and lengths the RFC allows. AES decryption undoes encryption and encryption undoes decryption for every key of 16, 24 or 32 bytes and all data of whole blocks; other key sizes and other data raise ValueError. Both standards' definitions determine the result: no data has two encryptions, no two data have the same one, and no two outputs of one length are scrypt's.", "quantifier": "every private key, passphrase, AES key, data, hash function with the right digest lengths and normalization", "why_tests_cant": "2^256 keys, all passphrases and all data", "anchors": ["neocore/KeyPair.py: KeyPair.ExportNEP2, KeyPair.PrivateKeyFromNEP2, SCRYPT_*, NEP_HEADER, NEP_FLAG"]}
{"id": "C106", "title": "Different passphrases that are the same NEP-2 key", "statement": "Passphrases whose UTF-8 encodings differ only in zero bytes at the end (at most 64 bytes in all), or of which one is longer than 64 bytes and the other encodes to its SHA-256 digest, are interchangeable: every key pair is exported to the same text with both, and every text is opened, to the same key, or refused with the same error. In particular every NEP-2 text exported with an ASCII passphrase of 2 to 63 characters is also opened by the passphrase with a NUL character appended.", "quantifier": "every pair of such passphrases, every key pair, every text", "why_tests_cant": "all passphrases, keys and texts", "anchors": ["neocore/KeyPair.py: KeyPair.ExportNEP2, KeyPair.PrivateKeyFromNEP2"]}
{"id": "C107", "title": "Fixed8.TryParse: which arguments it accepts and what it makes of them", "statement": "For an argument of any type: a str (after Unicode white space and decimal digits have been read as blanks and digits) or bytes gives None exactly if it is not in Python's float grammar (blanks, sign, digits with single underscores between digits, optional point and exponent, or inf/infinity/nan in any case). A number x - text, bytes, float or Decimal - gives the integer part of round(round(x) * 10^8), round being rounding to the nearest double; if one of the roundings overflows, or x is infinite, OverflowError is raised; nan raises ValueError, a signalling NaN Decimal gives None. With require_positive a negative number or negative infinity gives None, but -0 does not. So an amount with at most eight decimals and below 2^52 satoshi is right or one satoshi short, however it is written, and Decimal('0.29') loses a satoshi although FromDecimal reads it exactly. Ints go the same way except that an int too large for a float is parsed exactly; for any other object float() decides unless it raises or is zero, then int().", "quantifier": "all texts, byte strings, floats, Decimals, ints and objects with any float()/int() behaviour, all Unicode databases, both values of require_positive", "why_tests_cant": "The accepted texts are an infinite language and the double rounding has to be right for every real number; tests try a few strings.", "anchors": ["neocore/Fixed8.py: Fixed8.TryParse, FromDecimal"]}
{"id": "C108", "title": "SHA-256 and RIPEMD-160, and everything hashed with them, follow the published definitions", "statement": "For every message, the SHA-256 and RIPEMD-160 functions behind Crypto.Hash256, Crypto.Hash160, Crypto.ToScriptHash and Crypto.ToAddress are the published ones: the digest is the only byte string related to the message by FIPS 180-4 (padding, message schedule, 64 rounds, constants from the cube and square roots of the first primes) and by the RIPEMD-160 specification (two lines of 80 steps). So Hash256 is double SHA-256, Hash160 is RIPEMD-160 of SHA-256, and the address of a script is Base58 of 23, that 20-byte digest and the first four bytes of the double SHA-256 of the 21 bytes before.", "quantifier": "all messages of any length (any number of blocks), all scripts, all script hashes", "why_tests_cant": "Test vectors fix a handful of messages; padding boundaries, schedule and round mistakes can hide at other lengths or block counts, and uniqueness of the digest is a statement about all byte strings.", "anchors": ["neocore/Cryptography/Helper.py: bin_dbl_sha256, bin_hash160, bin_hash160Bytes, scripthash_to_address", "neocore/Cryptography/Crypto.py: Crypto.Hash160, Crypto.Hash256, Crypto.ToScriptHash, Crypto.ToAddress"]}
{"id": "C109", "title": "MerkleTree with the documented argument types", "statement": "The docstrings ask for a list of bytearrays and for flags like \"0000\". A list of two or more elements that contains any value without ToArray (bytearray, bytes, text, number, None) makes MerkleTree and ComputeRoot raise AttributeError; a single element of any type is returned as its own root unexamined, and a tree over a single bytearray cannot be listed by ToHashArray (TypeError). Trim with a str raises TypeError and changes nothing; b'0...' keeps the whole tree whatever follows (the character 0 is not the byte 0); a non-negative number removes all children whatever its value, a negative one raises ValueError; a list stands for its bytes and is refused with ValueError or TypeError, changing nothing, unless all its elements are integers in range(256).", "quantifier": "all lists of fewer than 2^53-1 elements of any of these types, all trees, all flags arguments", "why_tests_cant": "The claim covers every mixture of element types at every position of a list of any length, and every flags value on every tree.", "anchors": ["neocore/Cryptography/MerkleTree.py: MerkleTree.__init__, __Build, ComputeRoot, ToHashArray, Trim"]}
{"id": "C110", "title": "A Fixed8 holding a float: what Fixed8(1.5) is and does", "statement": "Fixed8(number) does not convert its argument. For a float x, Fixed8(x) stands for x hundred-millionths (ToInt is 0 for |x| <= 99999999; ToString, Floor, Ceil and ToInt are those of the float nearest x/10^8), not for x units. It cannot be written: WriteFixed8 raises struct.error and writes nothing. The float spreads: +, -, * and // with such an operand give a float again (ints are rounded to floats first and the result is rounded; exact for whole numbers up to 2^53, and // is the exact floor for quotients up to 2^48, zero by a negative number is -0.0, but beyond 2^53 even adding Fixed8(0.0) changes an amount), only /, %, Ceil and Floor give integer amounts back. Comparisons are exact between any mix of ints and finite floats, and false with nan. Ceil, Floor, ToInt and / raise ValueError for nan and OverflowError for the infinities. Amounts built from ints by any operators have integer values, except for ** with a negative exponent, which gives a float, or raises for a zero base or numbers too large for a float.", "quantifier": "every finite binary64 float and every int as the held values, every operator, every expression built from ints", "why_tests_cant": "the statements range over all floats and ints and all expressions; exactness of comparisons and of the remainder depends on rounding of every bit pattern", "anchors": ["neocore/Fixed8.py:Fixed8.__init__", "neocore/Fixed8.py:Fixed8.__add__..__le__", "neocore/Fixed8.py:Fixed8.__pow__", "neocore/Fixed8.py:Fixed8.ToString", "neocore/IO/BinaryWriter.py:WriteFixed8"]}
{"id": "C111", "title": "Threads: the shared curve and Crypto.Default() under every interleaving", "statement": "With any number of threads making KeyPairs, calling Crypto.Default() and signing or verifying, under every interleaving of their loads and stores: a thread that itself begins with a KeyPair or Crypto.Default() only ever computes with the parameters of P-256, whatever the others do; once the shared variables describe P-256 they always do and every thread sees only P-256; an instance is visible to others only after the curve has been set up, and Default() never returns None; any value seen of a curve parameter (also the pair G) is the initial one or the P-256 one, never a torn one; every thread finishes after a bounded number of its own steps and gets exactly what it asked for, in order; once an instance exists and no thread is inside a call, every later Default() of every thread returns that object. But a thread that uses the static methods without setting up first can see the prime of one curve with the order or base point of the other, and the first Default() calls of two threads can return two different objects, even two different objects to one thread.", "quantifier": "every number of threads, every list of calls of each, every schedule (interleaving at the level of single loads and stores), every initial value of the shared variables without an instance or describing P-256", "why_tests_cant": "a test runs a few interleavings picked by the operating system; the statements quantify over all of them", "anchors": ["neocore/Cryptography/Crypto.py:Crypto.SetupSignatureCurve", "neocore/Cryptography/Crypto.py:Crypto.Default", "neocore/Cryptography/Crypto.py:CryptoInstance.__init__", "neocore/KeyPair.py:KeyPair.setup_curve"]}
{"id": "C112", "title": "Threads sharing one stream through readers and writers, under every interleaving", "statement": "Any number of threads use BinaryReaders and BinaryWriters on one BytesIO, each choosing its next call from the results so far; threads are switched between the stream's read and write operations. A call that is not interrupted does on the shared stream exactly what it does in a program with one thread. Threads whose calls use the stream at most once each (the fixed-width reads and writes, ReadByte/ReadBytes, WriteBytes, WriteVarInt below 253, ...) behave under every schedule as if whole calls took turns in the schedule's order. Threads that only write, on a stream at its end, never overwrite or lose a byte: what is on the stream is an interleaving of pieces, and each thread's pieces and results are those it produces running alone for as many steps. But calls that use the stream more than once are not atomic: a byte written by another thread can land inside a var-int of 253 or more, so that both calls succeed and ReadVarInt does not give the number back unless the byte happens to be its low byte; and a ReadByte of another thread can take the low byte of the number out of a ReadVarInt in progress, which then returns v/256 + x*256^(n-1).", "quantifier": "every number of threads, every program of each (calls chosen from earlier results), every schedule at the level of single stream operations, every content and position of the stream (append: every content, position at the end), every number from 253 to 2^64-1 and every foreign byte", "why_tests_cant": "a test runs a few interleavings picked by the operating system; the statements quantify over all schedules and programs", "anchors": ["neocore/IO/BinaryReader.py:BinaryReader.__init__", "neocore/IO/BinaryReader.py:BinaryReader.ReadVarInt", "neocore/IO/BinaryWriter.py:BinaryWriter.__init__", "neocore/IO/BinaryWriter.py:BinaryWriter.WriteVarInt"]}
{"id": "C113", "title": "The endian argument as any text", "statement": "The endian argument of WriteFloat, WriteDouble, WriteInt8 ... WriteUInt64 and of the matching reads is put in front of a struct format letter unchecked. No text, '<', '=' or '@', followed by any blanks, mean little endian, '>' and '!' big endian, with results as for '<' and '>'. Every other text of punctuation and blanks (a blank before the order character included) raises struct.error, a non-ASCII text UnicodeEncodeError: a write has then written nothing, but a read has already consumed its bytes. For any text whatever that does not end in a zero count, a write either raises writing nothing or writes the encoding of one of the two byte orders, preceded by zero bytes only if the text contains an 'x' (k times 'x' gives k zero bytes, which the matching read cannot read back); a read raises or returns what one of the two byte orders returns, or b'' if the text contains an 's'. WriteVarInt and WriteVarBytes ignore the text below 253; above, a refused text leaves the marker byte alone in the stream.", "quantifier": "every text as endian argument, every value, every stream, all ten formats", "why_tests_cant": "unbounded texts in struct's format language; tests only use the two documented values", "anchors": ["neocore/IO/BinaryWriter.py:pack,WriteFloat,WriteDouble,WriteInt8,WriteUInt8,WriteInt16,WriteUInt16,WriteInt32,WriteUInt32,WriteInt64,WriteUInt64,WriteVarInt,WriteVarBytes", "neocore/IO/BinaryReader.py:unpack,ReadFloat,ReadDouble,ReadInt8,ReadUInt8,ReadInt16,ReadUInt16,ReadInt32,ReadUInt32,ReadInt64,ReadUInt64"]}
{"id": "C114", "title": "How deep the recursion goes", "statement": "The recursive functions never meet Python's recursion limit on the sizes the package is used with, and their depth is known exactly. GCD(a, b) needs as many frames as Euclid's algorithm has pairs: with that many it returns the result of C64, with fewer it raises RecursionError. So (Lame) with 999 frames (the default limit and one caller) it returns for every a below 2^693, whatever b, but there are coprime numbers of at most 695 bits on which GCD and modinv raise RecursionError. Dividing two values of a field needs five frames more than GCD: 375 are enough for divisors of at most 256 bits, in every field, and 374 are not always. Building a Merkle tree over n >= 2 hashes needs exactly ceil(log2 n)+4 frames, ComputeRoot one more, ToHashArray ceil(log2 n)+3, Trim one more than the greater of ceil(log2 n) and what logging takes; with fewer they raise RecursionError, with that many the results are those of C55-C58. So 58 frames are enough for every list of fewer than 2^53-1 hashes.", "quantifier": "all integers, all moduli, all lists of fewer than 2^53-1 hashes, every number of free frames", "why_tests_cant": "the depth depends on the values, and the extreme inputs of a given size are few among 2^693", "anchors": ["neocore/Cryptography/ECCurve.py:GCD,modinv,FiniteField.div,FiniteField.inverse,FiniteField.Value.__truediv__", "neocore/Cryptography/MerkleTree.py:MerkleTree.__init__,__Build,ComputeRoot,__DepthFirstSearch,ToHashArray,Trim,_TrimNode"]}
{"id": "C115", "title": "A Merkle tree keeps the objects it was given and goes stale", "statement": "The leaves of a tree hold the very UInt objects of the list, every other node a new UInt256 of its own; making a tree changes nothing the program had, and by value the tree is that of C55-C58. Afterwards, whatever the program does to its own UInts and bytearrays (mutating a shared bytearray, Deserialize), the root hash stays the root of the hashes as they were when the tree was made. If ComputeRoot of the same objects still gives the same bytes, then no object's bytes have changed (or double SHA-256 collides). ToHashArray returns leaf objects, one for each combination of current bytes and cached hash, so leaves that have become equal are both returned if their cached hashes differ. ComputeRoot of one hash, and the Root.Hash of its tree, is the object itself and follows its changes; with two or more, writing to the bytearray that Root.Hash.ToArray() hands out replaces the root.", "quantifier": "all lists of fewer than 2^53-1 UInt objects (repetitions and shared bytearrays included), every history of constructions, mutations and deserializations before and after", "why_tests_cant": "all heaps of shared objects and all histories", "anchors": ["neocore/Cryptography/MerkleTree.py:MerkleTreeNode.__init__,MerkleTree.__init__,__Build,ComputeRoot,__DepthFirstSearch,ToHashArray", "neocore/UIntBase.py:__init__,ToArray,Deserialize,__hash__,__eq__"]}
{"id": "C116", "title": "UInts in sorted(), min() and max()", "statement": "sorted() (list.sort()) of UInts of one size returns the same items in ascending order of value // 256, items that differ in their lowest byte only staying in the order they came in: a list of such items comes back unchanged, so [x, y] and [y, x] both stay as they are and equal items need not end up next to each other ([x, y, x] is left alone). Without such ties the outcome depends only on which items are in the list. min() and max() give the first item of the smallest and of the greatest value // 256; of an empty list they raise ValueError. If the list has two items of different sizes all three raise an Exception, wherever these items are.", "quantifier": "all lists of UInts, every sorting algorithm that sorts lists of ints stably and looks at the items by < only", "why_tests_cant": "all lists and all orders of them; every algorithm Python may use", "anchors": ["neocore/UIntBase.py:CompareTo,__lt__,__gt__,__eq__"]}
{"id": "C117", "title": "UInts as keys of dicts and members of sets", "statement": "As long as the program changes no bytearray a UInt holds and deserializes into no UInt that is a key, a dict with UInt keys is the map from byte strings to values: a UInt of whatever class finds the value stored last under a UInt of the same bytes, or KeyError if there is none or it was deleted, and there is one entry for each byte string that has a value. If the bytearray of a key is changed to c, the key itself still finds its entry, but a UInt made afterwards from bytes x finds it only if x = c and the first four bytes have kept their value: otherwise nothing but the key finds it, and storing under a UInt of bytes c leaves two entries with equal keys. If a key is deserialized into and the first four bytes change in value, no UInt made afterwards finds its entry, and the key itself need not find it.", "quantifier": "all histories of constructions, mutations, deserializations, d[k] = v and deletions, all byte strings", "why_tests_cant": "all histories over shared mutable objects", "anchors": ["neocore/UIntBase.py:__init__,__eq__,__hash__,GetHashCode,Deserialize"]}
{"id": "C118", "title": "np-utils does what its command line says, or nothing", "statement": "The command lines that set options are sequences of --address-to-scripthash VALUE, --scripthash-to-address VALUE (each also with =VALUE, names in full or cut after at least one letter) and --create-wallet; such a line has one reading and runs main() with the last value given for each option. A separate VALUE must not begin with '-', unless it is '-', looks like a negative number or contains a blank and is not itself like an option. Every other command line does nothing but print the help or the version (status 0; only if some argument asks for it), fail with status 2, or end in a release-dependent way if an argument is -h followed by something; without such arguments it is always status 2. -h, --help, --version after a good beginning win over whatever follows, except an argument beginning with --=. No arguments at all: status 1. For an address of a 20-byte script hash, both printed forms of the hash given to --scripthash-to-address print that address.", "quantifier": "all lists of arguments, all texts of values, all ways of abbreviating", "why_tests_cant": "all argument lists", "anchors": ["neocore/bin/cli.py:main", "neocore/__init__.py:__version__"]}
{"id": "C119", "title": "BigInteger.Equals and FromBytes with arguments of other types", "statement": "Equals answers True or False for numbers only (ints, bools, BigIntegers: whether they are equal); for every other argument it returns the object NotImplemented, which a condition takes for true: 'if x.Equals(v)' is skipped only if v is a number different from x, although x == v is False for texts, bytes and None. FromBytes of a list of numbers in range(256) is FromBytes of the bytes they stand for; otherwise the first element that is not such a number decides between TypeError (not a number) and ValueError (out of range), and anything but bytes, a bytearray or a list is a TypeError, numbers included.", "quantifier": "all integers, all arguments of these types, both values of signed", "why_tests_cant": "all arguments", "anchors": ["neocore/BigInteger.py:Equals,FromBytes"]}
{"id": "C120", "title": "Pass phrases, addresses, signatures and keys of other types", "statement": "ExportNEP2 with a pass phrase that is not text never exports: ValueError for bytes or a bytearray of fewer than two bytes, else TypeError (the error of GetAddress, if it has one, comes before). PrivateKeyFromNEP2 with such a pass phrase fails as with every other pass phrase or with TypeError, and always with TypeError for a text that some pass phrase opens. isValidPublicAddress of bytes or a bytearray is False whatever they say, and TypeError for None and numbers. VerifySignature with a signature that is not bytes (for instance in hexadecimal) returns False, unless it raises for every signature; with a public key given as text (for instance in hexadecimal) it returns False whatever the signature, except that 33 characters are a plain Exception; None and numbers as the key are a TypeError.", "quantifier": "all arguments of these types, all messages, keys, states and libraries", "why_tests_cant": "all arguments", "anchors": ["neocore/KeyPair.py:ExportNEP2,PrivateKeyFromNEP2", "neocore/Utils.py:isValidPublicAddress", "neocore/Cryptography/Crypto.py:VerifySignature"]}
{"id": "C121", "title": "Helper functions with arguments of other types", "statement": "double_sha256, bin_dbl_sha256, bin_hash160, bin_hash160Bytes, redeem_to_scripthash, pubkey_to_redeem, pubkey_to_pubhash and scripthash_to_address (and the Crypto functions that forward to them) treat bytes and bytearrays alike and raise TypeError for everything else, also for text of hexadecimal digits. Only ToScriptHash takes text: of two or more ASCII characters, as the same bytes, with unhex; non-ASCII text raises ValueError; shorter text, text with unhex=False, None and numbers raise TypeError. ToAddress of a 32-byte hash gives 50 characters that isValidPublicAddress refuses although address_to_scripthash reads the hash back. base256_encode takes bools and BigIntegers as ints, but a BigInteger width that asks for padding raises TypeError, as does a float width. A float as the number: negative or nan ValueError, both zeros like 0, any other finite float TypeError after a loop that always ends, and for infinity the loop never ends. Text, bytes and None raise TypeError.", "quantifier": "all arguments of every type, all floats, all widths, all hash functions", "why_tests_cant": "all arguments; that a loop ends for every float, and never for infinity, is not a finite observation", "anchors": ["neocore/Cryptography/Helper.py:double_sha256,bin_dbl_sha256,bin_hash160,bin_hash160Bytes,pubkey_to_redeem,pubkey_to_pubhash,redeem_to_scripthash,scripthash_to_address,base256_encode", "neocore/Cryptography/Crypto.py:Hash160,Hash160Bytes,Hash256,ToScriptHash,ToAddress"]}
{"id": "C122", "title": "BigIntegers next to floats, and in sums", "statement": "A BigInteger on the left of a float makes + - * / // % raise TypeError for every float, but with the float on the left the same expression is an ordinary float (the nearest to the exact result on the operands rounded to floats; // exact for quotients up to 2^48; zero divisors raise ZeroDivisionError, numbers too large for a float OverflowError). divmod accepts floats in both places. Comparisons of BigIntegers and floats are exact in both directions, false with nan, and the infinities lie outside all numbers. ** with a negative exponent is a float or an error. sum(list of BigIntegers) is a plain int, so dividing it is float division; sum(list, ZERO) is a BigInteger; both are the total.", "quantifier": "all integers of any size, all floats, all lists", "why_tests_cant": "all pairs of an unbounded integer and a float, including those where rounding matters", "anchors": ["neocore/BigInteger.py:BigInteger.__add__,__sub__,__mul__,__truediv__,__floordiv__,__mod__,ZERO"]}
{"id": "C123", "title": "BigInteger built from other values", "statement": "BigInteger(text) gives a number exactly for blanks, an optional sign, decimal digits with single underscores between them, blanks (Unicode digits and white space count), ValueError for every other text; BigInteger(bytes) likewise for ASCII. Each text has one value, and BigInteger(str(x)) = x for every x, also through the bytes. A float's or Decimal's fraction is cut off towards zero; nan raises ValueError and the infinities OverflowError. The result is always a BigInteger.", "quantifier": "all texts, byte strings, floats, Decimals and integers", "why_tests_cant": "the accepted texts are an infinite language, and the round trip ranges over all integers", "anchors": ["neocore/BigInteger.py:BigInteger,__str__"]}
{"id": "C124", "title": "A Fixed8 holding a Decimal: what Fixed8(Decimal('1.5')) is and does", "statement": "Fixed8(number) keeps a Decimal as it is: it stands for that many hundred-millionths, not units, and WriteFixed8 raises struct.error and writes nothing. With a Decimal on either side, +, - and * give a Decimal: the exact result rounded to 28 digits, ties to even (exact up to 28 digits), or decimal.Overflow from 10^1000000; negation rounds too. / gives the int cut from the rounded quotient. // and % use the quotient cut towards zero, not rounded down, so Fixed8(-7) // Fixed8(Decimal(2)) is -3 while Fixed8(-7) // Fixed8(2) is -4; a quotient of more than 28 digits raises decimal.InvalidOperation. A zero divisor raises decimal.DivisionByZero (a ZeroDivisionError) for / and // and InvalidOperation for % and for 0/0. ToInt, Ceil and Floor round the amount over 10^8 to 28 digits first. Comparisons are exact between any mix of ints and Decimals.", "quantifier": "all finite Decimals of any number of digits and any exponent, all ints, every operator", "why_tests_cant": "all pairs of decimals with unbounded digits and exponents, where the rounding and the direction of division matter", "anchors": ["neocore/Fixed8.py:Fixed8.__init__,__add__,__sub__,__mul__,__truediv__,__floordiv__,__mod__,__neg__,__eq__,__lt__,__gt__,__ge__,__le__,Ceil,Floor,ToInt", "neocore/IO/BinaryWriter.py:BinaryWriter.WriteFixed8"]}
