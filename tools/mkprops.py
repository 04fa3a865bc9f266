import json
P=[]
def p(title, statement, quant, why, anchors):
    P.append(dict(id="C%02d"%(len(P)+1), title=title, statement=statement, quantifier=quant, why_tests_cant=why, anchors=anchors))
B58="bip38/libs/base58.py"; U="bip38/utils.py"; W="bip38/wif.py"; M="bip38/bip38.py"; PK="bip38/p2pkh_address.py"; S="bip38/secp256k1/"
p("Base58 decode inverts encode",
  "base58.decode(base58.encode(d, A), A) returns d, byte for byte, including every leading zero byte, for every byte string d and every alphabet A of at least two distinct ASCII characters (in particular the Bitcoin and Ripple alphabets).",
  "all byte strings of any length; all alphabets with >=2 distinct ASCII characters","infinitely many inputs; leading zeros and carry boundaries are the hard cases",
  [B58+":encode",B58+":decode"])
p("Base58 encode inverts decode on well-formed strings",
  "For every string s all of whose characters belong to the alphabet A, base58.decode(s, A) succeeds and base58.encode of the result is s again; so no two different well-formed strings decode to the same bytes, and encode only ever emits characters of A.",
  "all strings over the alphabet, all such alphabets","an injectivity claim over an infinite set cannot be sampled",
  [B58+":encode",B58+":decode"])
p("Base58Check acceptance is exact",
  "check_decode(check_encode(d)) = d for every d; and check_decode(s) returns d only if base58.decode(s) is d followed by the first four bytes of SHA256(SHA256(d)); every other ASCII string raises ValueError. For strings over the alphabet, check_decode(s)=d if and only if s = check_encode(d).",
  "all byte strings d, all strings s","soundness of acceptance is a statement about every string",
  [B58+":check_encode",B58+":check_decode"])
p("Base58 decode and characters outside the alphabet",
  "A user expects a Base58 string containing a character outside the alphabet (0, O, I, l, punctuation) to be rejected. The code never rejects an ASCII string: such a character is read as the digit -1, so e.g. replacing two trailing characters 'x_i 0' by 'x_{i-1} z' leaves the decoded bytes unchanged; hence different strings are accepted as the same key. Only a non-ASCII character is rejected (UnicodeEncodeError).",
  "all strings","the collision exists for every prefix string; a test sees one",
  [B58+":decode"])
p("Integer/bytes conversion",
  "bytes_to_integer(integer_to_bytes(n)) = n for every n >= 0 with or without a sufficient width, in both byte orders; with a width w the result has exactly w bytes and OverflowError is raised iff n does not fit; without a width the result is the shortest big-endian string (one zero byte for 0), so integer_to_bytes(bytes_to_integer(b)) equals b with its leading zero bytes removed, and equals b iff b does not start with a zero byte (or is the single zero byte).",
  "all integers, all byte strings, both byte orders","unbounded integers",
  [U+":integer_to_bytes",U+":bytes_to_integer"])
p("Hex conversion",
  "get_bytes(bytes_to_string(b)) = b for every byte string b; bytes_to_string of a non-empty byte string is its lowercase two-digit hex; bytes_to_string leaves a hex string unchanged; get_bytes of a str that is not pairs of hex digits (separated by ASCII whitespace) raises ValueError. get_bytes returns bytes unchanged, gives b'' for None, 0 and the empty string or bytes, with unhexlify=False gives the UTF-8 bytes of a text (UnicodeEncodeError if it has none), and raises TypeError for any other true object.",
  "all byte strings and strings","infinite domain",
  [U+":get_bytes",U+":bytes_to_string"])
p("WIF round trip",
  "For every 32-byte private key, every supported coin and network and both WIF types, private_key_to_wif returns a string from which wif_to_private_key, get_wif_type and get_wif_checksum recover exactly the key, the type and the four checksum bytes; distinct (key, type) pairs give distinct WIFs.",
  "all 2^256 keys, all coins/networks in the table (and every prefix >= 0), both types","2^256 keys times every prefix",
  [W+":encode_wif",W+":decode_wif",W+":private_key_to_wif",W+":wif_to_private_key",W+":get_wif_type",W+":get_wif_checksum"])
p("WIF encoding rejects bad arguments",
  "encode_wif/private_key_to_wif raise Secp256k1Error for every key whose byte length is not 32, and private_key_to_wif raises WIFError for every wif_type other than 'wif' and 'wif-compressed'; they never return a string in these cases, and the message states the rejected value or length exactly.",
  "all byte strings and all type strings","negative claim over all inputs",
  [W+":encode_wif",W+":private_key_to_wif"])
p("WIF decoding acceptance is exact",
  "decode_wif(s, prefix) returns (k, t, c) exactly when the Base58 decoding of s is prefix-bytes || k || [one arbitrary byte if t is 'wif-compressed'] || c with 32-byte k and 4-byte c; otherwise it raises WIFError (or UnicodeEncodeError for non-ASCII s). In particular a WIF made for a prefix of the same byte length but different value is always rejected with WIFError.",
  "all strings, all prefixes","exact acceptance set over all strings",
  [W+":decode_wif"])
p("WIF checksum is not verified",
  "A user expects a mistyped WIF to be rejected by its checksum. decode_wif (hence wif_to_private_key and BIP38.encrypt) never compares the checksum: for every key and every four checksum bytes the string is accepted and yields that key; also the compression marker byte may be anything, not only 0x01.",
  "all keys, all checksum values, all marker bytes","shows a missing check for every input",
  [W+":decode_wif",M+":BIP38.encrypt"])
p("P2PKH address round trip and rejection",
  "P2PKHAddress.decode(P2PKHAddress.encode(K, address_prefix, public_key_type, alphabet), address_prefix, alphabet) returns the hex of RIPEMD160(SHA256(serialised K)) for every public key, prefix >= 0 and alphabet; decode returns only if the Base58Check payload is the prefix followed by exactly 20 bytes, otherwise it raises AddressError (payload wrong: 'Invalid length' with expected and actual length, or 'Invalid prefix' with expected and actual bytes, in that order) or ValueError (checksum wrong).",
  "all public keys, prefixes, alphabets, strings","all keys and all malformed strings",
  [PK+":P2PKHAddress.encode",PK+":P2PKHAddress.decode"])
p("Passphrase encryption round trip (no EC multiply)",
  "If encrypt(wif, passphrase) returns e, where wif is the WIF of a 32-byte key k of the instance's coin and network, then decrypt(e, passphrase) returns that same wif (and with detail=True its key, type, public key, public-key type, address, and None for seed/lot/sequence) whenever the first byte of k is not zero; when the first byte of k is zero, that is for the private keys from 1 to 2^248 - 1, decrypt raises Secp256k1Error, so the key cannot be recovered with this library.",
  "all keys, passphrases, coins, networks, both WIF types, all hash/KDF/cipher outputs","failure needs a key with a leading zero byte; round trip is over 2^256 keys and all passphrases",
  [M+":BIP38.encrypt",M+":BIP38.decrypt",U+":integer_to_bytes"])
p("encrypt succeeds exactly when neither masked half starts with a zero byte",
  "For a valid key k and a UTF-8 encodable passphrase, with D the first 32 bytes of the scrypt output, encrypt returns a string iff k[0] != D[0] and k[16] != D[16]; otherwise it raises ValueError from the AES layer (the masked half loses its leading zero byte).",
  "all keys and passphrases","about one (key, passphrase) pair in 128 fails; testing a fixed vector list misses it",
  [M+":BIP38.encrypt",U+":integer_to_bytes"])
p("encrypt output is the BIP38 record",
  "Whatever encrypt returns is the Base58 text of 0x0142 || flag (0xC0 uncompressed, 0xE0 compressed) || first 4 bytes of SHA256d(address text) || AES256(k[0:16] xor D1) || AES256(k[16:32] xor D2) || 4-byte double-SHA checksum, with the address of k on the selected network and D/key from scrypt(NFC(passphrase), addresshash, 16384, 8, 8, 64).",
  "all keys and passphrases","the layout must hold for every input",
  [M+":BIP38.encrypt"])
p("Encrypted key and code text shape",
  "Every encrypted key returned by encrypt or create_new_encrypted_wif is 58 characters long and starts with '6P'; every confirmation code is 75 characters and starts with 'cfrm38'; every intermediate code for an 8-byte entropy is 72 characters and starts with 'passphrase'.",
  "all keys, passphrases, seeds, salts","a magnitude argument over every payload",
  [M+":BIP38.encrypt",M+":BIP38.create_new_encrypted_wif",M+":BIP38.intermediate_code",B58+":encode"])
p("decrypt never returns a key that does not match the embedded address hash",
  "Whenever decrypt returns a WIF (either mode, any passphrase, any input string), the first 4 bytes of SHA256d of the P2PKH address of the returned key (in the reported compression, on the selected network) equal bytes 3..6 of the decoded input, the returned WIF encodes that key, and the detail record is consistent (private key, public key, address, types all describe the same key). A wrong passphrase therefore either raises or hits a 32-bit collision.",
  "all strings, passphrases, networks","soundness over all inputs, including adversarial ones",
  [M+":BIP38.decrypt"])
p("detail flag does not change the outcome",
  "decrypt(..., detail=False) returns exactly the 'wif' field of decrypt(..., detail=True), and raises the same exception in the same cases; likewise confirm_code(..., detail=False) returns exactly the 'address' field.",
  "all inputs to decrypt and confirm_code","relational property over all inputs",
  [M+":BIP38.decrypt",M+":BIP38.confirm_code"])
p("decrypt input validation",
  "decrypt raises WIFError for every ASCII string that does not Base58-decode to 43 bytes, Error for every 43-byte payload whose first two bytes are neither 0x0142 nor 0x0143, and Error for every 0x0142 payload whose flag byte is neither 0xC0 nor 0xE0, before any passphrase processing; the message quotes the actual length, prefix or flag bytes; non-ASCII input raises UnicodeEncodeError.",
  "all strings and passphrases","negative claim over all malformed inputs",
  [M+":BIP38.decrypt"])
p("decrypt ignores the checksum of the encrypted key",
  "A user expects a mistyped encrypted key to be detected by its 4-byte checksum. decrypt never looks at those bytes: for every 39-byte body and any two 4-byte trailers the two Base58 strings give the same result.",
  "all bodies, trailers, passphrases","a missing check, for every input",
  [M+":BIP38.decrypt"])
p("Unicode-equivalent passphrases are interchangeable",
  "intermediate_code, encrypt, confirm_code and decrypt depend on the passphrase only through its NFC normalisation: two passphrases with equal NFC forms give identical results in every call.",
  "all pairs of passphrases, all other arguments","pairs of strings are unbounded",
  [M+":BIP38.intermediate_code",M+":BIP38.encrypt",M+":BIP38.confirm_code",M+":BIP38.decrypt"])
p("intermediate_code output",
  "With lot in 100000..999999, sequence in 1..4095 and a 4- or 8-byte owner salt, the result is the Base58Check text of 0x2CE9B3E1FF39E251 || salt[0:4] || (lot*4096+sequence as 4 bytes) || compressed passfactor*G with passfactor = SHA256d(scrypt(NFC(passphrase), salt[0:4]) || entropy); without lot and sequence and an 8-byte salt it is that of 0x2CE9B3E1FF39E253 || salt || compressed scrypt(NFC(passphrase), salt)*G. It raises Secp256k1Error iff the factor is 0 or >= N.",
  "all passphrases, salts, lots, sequences","all parameter combinations",
  [M+":BIP38.intermediate_code"])
p("intermediate_code argument validation",
  "intermediate_code raises Error (and returns nothing) for every owner salt whose length is not 4 or 8, for a 4-byte salt when lot or sequence is missing, when exactly one of (non-zero) lot and sequence is given, and, when both are non-zero, for every lot outside 100000..999999 or sequence outside 1..4095; the message quotes the offending value.",
  "all argument combinations","unbounded integers",
  [M+":BIP38.intermediate_code"])
p("Sequence number 0 is silently dropped",
  "The documented range of sequence is 0-4095. For every valid lot and sequence 0, intermediate_code does not produce a lot/sequence code: with an 8-byte salt it returns exactly the code it returns without lot and sequence; with a 4-byte salt it returns a 45-byte payload that create_new_encrypted_wif always rejects. Likewise lot 0 with any sequence is accepted and ignored instead of being rejected.",
  "all lots, salts, passphrases","shows wrong behaviour for the whole class, plus the consequence downstream",
  [M+":BIP38.intermediate_code",M+":BIP38.create_new_encrypted_wif"])
p("EC-multiply round trip",
  "If intermediate_code(passphrase, lot, sequence, salt) (or without lot and sequence) returns c and create_new_encrypted_wif(c, wif_type, seed of 24 bytes, network) returns r, then decrypt(r.encrypted_wif, passphrase, network, detail=True) returns the key passfactor*factorb mod N in the requested WIF type, with the same public key, public-key type, address and seed as r and the lot and sequence given to intermediate_code, provided none of three byte values is zero: the first byte of the seed, byte 8 of the first cipher block, and the first byte of the resulting private key.",
  "all passphrases, salts, lots, sequences, seeds, coins, networks","composition of three calls over all inputs, resting on the elliptic-curve group law",
  [M+":BIP38.intermediate_code",M+":BIP38.create_new_encrypted_wif",M+":BIP38.decrypt"])
p("EC-multiply keys that can be created but not decrypted",
  "A user expects every encrypted key returned by create_new_encrypted_wif to be decryptable with the passphrase behind the intermediate code. This is false: for every created key whose private key has a zero first byte (and whose seed survives) decrypt with the right passphrase raises Secp256k1Error; and whenever the first byte of the 24-byte seed, or byte 8 of the first cipher block, is zero, decrypt with the right passphrase never reports that seed, and it returns the right private key only if the seed it reconstructs instead (shorter than 24 bytes) has the same double SHA-256.",
  "all passphrases, codes, seeds, coins and networks in the stated classes","happens with probability about 3/256 per created key",
  [M+":BIP38.create_new_encrypted_wif",M+":BIP38.decrypt",U+":integer_to_bytes"])
p("Confirmation code round trip",
  "With c and r as in the EC-multiply round trip, confirm_code(passphrase, r.confirmation_code, network, detail=True) returns the same address, public key and public-key type as r and the lot and sequence of the intermediate code, provided neither half of factorb*G's x coordinate starts with a zero byte; the confirmation does not need the seed.",
  "all passphrases, salts, lots, sequences, seeds, coins, networks","composition over all inputs, rests on commutativity of scalar multiplication",
  [M+":BIP38.create_new_encrypted_wif",M+":BIP38.confirm_code"])
p("confirm_code soundness",
  "Whenever confirm_code returns an address, the first 4 bytes of its SHA256d equal the address hash stored in the code, the Base58Check checksum of the code was valid, its prefix was 0x643BF6A89A and the payload 51 bytes; the address is the P2PKH address (on the selected network) of the returned public key. All other inputs raise, with a message that quotes the actual length or prefix (the length message names 102 as expected although 51 bytes are required).",
  "all strings and passphrases","soundness over all inputs",
  [M+":BIP38.confirm_code"])
p("create_new_encrypted_wif output consistency",
  "Whenever create_new_encrypted_wif returns r: r.public_key is the serialisation of SHA256d(seed)*passpoint in the reported type, r.address is its P2PKH address on the selected network, r.seed is the hex of the seed used, and both r.encrypted_wif and r.confirmation_code are Base58Check texts carrying the same flag, the address hash of r.address and the owner entropy of the intermediate code, laid out as in BIP38.",
  "all intermediate codes, seeds, types, networks","relational claim over the whole output record",
  [M+":BIP38.create_new_encrypted_wif"])
p("create_new_encrypted_wif input validation",
  "It raises PassphraseError for every intermediate string that fails Base58Check (or is not ASCII) or does not carry 49 bytes, WIFError for every wif_type other than the two legal ones, Error for every other magic, Secp256k1Error for every passpoint that is not a compressed curve point; it never returns a record for such inputs, and the message quotes the offending length, wif type or magic.",
  "all strings, types, seeds","negative claim over all malformed inputs",
  [M+":BIP38.create_new_encrypted_wif"])
p("Seed length is not checked",
  "BIP38 requires a 24-byte seed and the documentation says 24. create_new_encrypted_wif does not check it. Shorter seeds are accepted unless one of the four blocks to be encrypted starts with a zero byte, and decrypt returns them (and the key) under the same conditions as 24-byte seeds. A seed longer than 24 bytes raises ValueError whenever byte 8 of the first cipher block is not zero; if such a call returns, decrypt with the right passphrase never returns that seed, and the right key only in case of a double SHA-256 collision.",
  "all seeds of any length other than 24","missing precondition check",
  [M+":BIP38.create_new_encrypted_wif"])
p("Network selection",
  "In encrypt, create_new_encrypted_wif, confirm_code and decrypt a missing or empty network means the instance's network, and every network name not in the coin's table raises NetworkError before anything else is examined, with a message that lists the coin's networks (and reports <class 'str'> instead of the offending name); results depend on the network only through its two prefixes, so networks with equal prefixes (Bitcoin testnet/regtest) give identical results.",
  "all coins, network strings and other arguments","relational claim over all arguments",
  [M+":BIP38.encrypt",M+":BIP38.decrypt",M+":BIP38.create_new_encrypted_wif",M+":BIP38.confirm_code"])
p("Constructor validation",
  "BIP38(coin, network) succeeds iff coin is an ICryptocurrency subclass with a network table and network is one of its names; then the instance's network and coin are those given. A class that is not a subclass raises CryptocurrencyError, an unknown network raises NetworkError listing the coin's networks.",
  "all coins and network strings","all strings",
  [M+":BIP38.__init__"])
p("Fallback RIPEMD-160 is RIPEMD-160",
  "The pure-Python ripemd160, which uses unbounded integers, negative intermediate values and lazy masking, returns for every byte string shorter than 2^61 bytes the 20-byte RIPEMD-160 digest (32-bit modular arithmetic, MD padding, little-endian length) and so does not depend on integer width; messages of 2^61 bytes or more raise struct.error.",
  "all byte strings","every message and every block count",
  ["bip38/libs/ripemd160.py:ripemd160","bip38/libs/ripemd160.py:compress","bip38/libs/ripemd160.py:rol","bip38/libs/ripemd160.py:fi"])
p("Results do not depend on whether hashlib offers RIPEMD-160",
  "If hashlib's ripemd160 is RIPEMD-160, every address, encrypted key, code and decryption result is the same on a Python build with and without it.",
  "all inputs to all public functions","relational claim between two platforms",
  ["bip38/crypto.py:ripemd160","bip38/crypto.py:hash160"])
p("Private key acceptance",
  "PrivateKey.from_bytes accepts a byte string iff it has 32 bytes and its big-endian value is in 1..N-1; raw() returns the same 32 bytes; every other byte string raises Secp256k1Error.",
  "all byte strings","2^256 values plus all lengths",
  [S+"private_key.py:PrivateKey.from_bytes",S+"private_key.py:PrivateKey.raw"])
p("Public key serialisation",
  "For every curve point P, PublicKey.from_bytes(raw_compressed(P)) and PublicKey.from_bytes(raw_uncompressed(P)) both give P; lengths are 33 and 65; from_bytes accepts only encodings of curve points with coordinates below the field prime and raises Secp256k1Error for every other byte string.",
  "all curve points, all byte strings","2^256 points; square roots modulo p",
  [S+"public_key.py:PublicKey.from_bytes",S+"public_key.py:PublicKey.raw_compressed",S+"public_key.py:PublicKey.raw_uncompressed"])
p("Key derivation is a group action",
  "For all private keys a, b in 1..N-1: the public key of a is an affine curve point, multiplying the public key of a by b gives the public key of a*b mod N, addition of points is commutative and associative, and distinct keys have distinct public keys.",
  "all scalars and points","needs the elliptic-curve group law and primality of p and N",
  [S+"private_key.py:PrivateKey.public_key",S+"point.py:Point.__mul__",S+"point.py:Point.__add__",S+"public_key.py:PublicKey.from_point"])
p("Every valid intermediate point can be multiplied",
  "secp256k1 has prime order N with cofactor 1: every curve point other than infinity times any scalar in 1..N-1 is an affine curve point, so create_new_encrypted_wif and confirm_code never meet the point at infinity whatever point the caller supplies.",
  "all curve points, all scalars","counts the points of the curve",
  [S+"point.py:Point.__mul__",M+":BIP38.create_new_encrypted_wif",M+":BIP38.confirm_code"])
p("Coin table is well formed",
  "Every network of every supported coin has a WIF prefix and an address prefix that fit the encodings: WIF prefix in 1..255, address prefix in 0..65535; every coin has at least one network; WIFs are 51 characters (uncompressed) or 52 (compressed) where the prefix is at least 0x80; for every coin and network all round trips above apply.",
  "all coins and networks in the table, all keys","all keys for all 150+ coins",
  ["bip38/cryptocurrencies.py:ICryptocurrency",W+":encode_wif"])
p("A coin's own alphabet is not used",
  "BIP38 stores the coin's ALPHABET (Ripple's differs from Bitcoin's) but every address it returns is Base58-encoded with the Bitcoin alphabet: for Ripple, results are identical to those for a coin with the same prefixes and no alphabet, and the returned address is not the Ripple-alphabet address.",
  "all keys and arguments","relational claim over all inputs",
  [M+":BIP38.__init__",M+":BIP38.encrypt","bip38/cryptocurrencies.py:Ripple"])
p("Which exceptions escape",
  "A user expects failures to be reported as bip38.exceptions.Error. For each of intermediate_code, encrypt, create_new_encrypted_wif, confirm_code and decrypt the set of exception classes that can escape is exactly determined for well-typed arguments, and every member of each set is reached: besides the library's classes, ValueError escapes from intermediate_code, encrypt, create_new_encrypted_wif and decrypt, and UnicodeEncodeError from intermediate_code, encrypt, confirm_code and decrypt; no OverflowError, TypeError, KeyError, AssertionError or other class ever does. decrypt raises ValueError exactly for EC records whose deciphered and unmasked second block starts with nine zero bytes (given a passphrase with a valid factor).",
  "all well-typed arguments","universal claim on failure paths",
  [M+":BIP38","bip38/exceptions.py"])
p("Flag byte semantics in EC mode",
  "In EC mode decrypt and confirm_code treat a flag as compressed/with lot exactly according to the FLAGS table: for the sixteen legal EC flags this is bit 0x20 and bit 0x04; flags outside the table (reserved bits set, or the non-EC bits 0xC0) are not rejected.",
  "all 256 flag bytes","finite but combined with all payloads",
  ["bip38/const.py:FLAGS",M+":BIP38.decrypt",M+":BIP38.confirm_code"])
p("Random inputs are used in full",
  "Without owner_salt, intermediate_code uses exactly the 8 random bytes obtained from the OS as the entropy in the code (the first 4 when lot and sequence are given); without seed, create_new_encrypted_wif uses exactly the 24 random bytes and reports them as 'seed'; with explicit values no randomness is consumed and the result is a function of the arguments.",
  "all random outputs and arguments","randomness is different on every run",
  [M+":BIP38.intermediate_code",M+":BIP38.create_new_encrypted_wif"])
p("Error message format",
  "str(e) of a library exception is exactly the message, followed by ', (expected: E | got: 'G')' when a non-empty expectation is given and by the detail when given, where a list of expectations is rendered as quoted items separated by ', '; a message without expectation and detail is the text itself.",
  "all messages, details, expectations","string formatting over all inputs",
  ["bip38/exceptions.py:Error.__init__","bip38/exceptions.py:Error.__str__"])
p("Byte reversal",
  "bytes_reverse is an involution that preserves length and converts between the two byte orders: bytes_to_integer(bytes_reverse(b), 'little') = bytes_to_integer(b, 'big').",
  "all byte strings","infinite domain",
  [U+":bytes_reverse"])
p("Point wrapper",
  "Point.raw_encoded/raw_decoded of a curve point decode back to the same point through Point.from_bytes; x() and y() are its coordinates; from_coordinates accepts exactly pairs satisfying the curve equation modulo p; but Point.from_bytes accepts raw and uncompressed encodings of pairs that are not on the curve.",
  "all coordinate pairs and byte strings","all points",
  [S+"point.py:Point"])
p("Decryption on another network",
  "decrypt of an encrypted key with a network whose address prefix differs returns a WIF only if the address hashes collide in all 32 bits; with equal address prefixes it returns the same private key encoded with the other network's WIF prefix.",
  "all encrypted keys, passphrases, pairs of networks","relational claim over all inputs",
  [M+":BIP38.decrypt"])
p("Keys made by other software decrypt",
  "decrypt accepts every encrypted key without EC multiplication that conforms to BIP38, not only those that encrypt can produce: with the right passphrase it returns the key's WIF for the selected network and the matching detail; the only exception are private keys whose first byte is zero, for which it raises Secp256k1Error.",
  "all private keys, passphrases, networks, both compressions","all 2^256 keys; no such library is at hand to test with",
  [M+":BIP38.decrypt"])
p("EC-multiplied keys made by other software decrypt",
  "decrypt accepts every conforming EC-multiplied key (any legal or unknown flag byte with the same meaning), and returns the product key, the seed and the lot and sequence numbers, provided that neither the seed nor the second half of the first AES block starts with a zero byte; a product key starting with a zero byte raises Secp256k1Error.",
  "all passphrases, entropies, seeds, flags, networks","all seeds and passphrases",
  [M+":BIP38.decrypt"])
p("Outcome of decrypt on every record",
  "For any text that decodes to 43 bytes with a BIP38 magic and any passphrase the outcome of decrypt is determined: which of the five errors is raised or which key is returned is decided, in this order, by encodability of the passphrase, validity of the owner's factor, length of the unmasked blocks, range of the key, its first byte, and equality of the 4-byte address hash. In particular a passphrase is accepted iff the address hash matches.",
  "all 43-byte records, right or wrong passphrases","decision table over 2^344 records",
  [M+":BIP38.decrypt"])
p("Outcome of confirm_code on every code",
  "For any checksummed 51-byte code with the confirmation magic and any passphrase the outcome is determined: invalid factor gives Error; otherwise the code is confirmed iff the unmasked bytes are a compressed curve point and the hash of the address of (factor times that point) equals the hash in the code, and PassphraseError otherwise. Every conforming code is confirmed with the address of the key it belongs to, unless one of the two halves of the point's x coordinate starts with a zero byte, in which case it is always rejected.",
  "all codes and passphrases","decision table over 2^408 codes",
  [M+":BIP38.confirm_code"])
p("Error texts reveal no secret",
  "No exception of the library (bip38.exceptions) raised by decrypt, confirm_code, encrypt, create_new_encrypted_wif or intermediate_code carries the passphrase, the private key or the seed in its text: the text of every library exception is one of a fixed list of texts, or renders only the argument that was wrong (the WIF or code length, the network type, the lot or sequence number, the salt length, the WIF type), and does not depend on the passphrase.",
  "all calls and arguments","one leak on one input is enough to violate it",
  [M+":BIP38","bip38/exceptions.py:Error"])
p("An encrypted key determines the private key",
  "With one passphrase two encryptions that return the same text were given the same private key and compression, on whatever networks: encrypt is injective.",
  "all pairs of WIFs and networks","relational claim over all pairs",
  [M+":BIP38.encrypt"])
p("Different seeds give different encrypted keys",
  "Two calls of create_new_encrypted_wif with one intermediate code that return the same encrypted WIF were given the same 24-byte seed and the same WIF type.",
  "all pairs of 24-byte seeds, WIF types, networks","relational claim over all pairs",
  [M+":BIP38.create_new_encrypted_wif"])
p("An intermediate code determines lot, sequence and salt",
  "Two calls of intermediate_code that return the same code, with whatever passphrases, were given the same lot, sequence and salt (its first 4 bytes when there is a lot), and their passphrases have the same owner factor; a code with lot and sequence is never equal to one without.",
  "all pairs of passphrases, lots, sequences, salts","relational claim over all pairs",
  [M+":BIP38.intermediate_code"])
p("One seed, one key",
  "For one intermediate code and seed the private key behind the new encrypted WIF is the same for both WIF types and for all networks; only its address and public key form differ.",
  "all codes, seeds, WIF types, networks","relational claim over all pairs",
  [M+":BIP38.create_new_encrypted_wif"])
p("A WIF of another network is refused",
  "encrypt given a WIF whose network prefix has the same length as, but differs from, the one of the selected network raises WIFError and returns nothing.",
  "all keys, passphrases, pairs of WIF prefixes","all 2^256 keys",
  [M+":BIP38.encrypt","bip38/wif.py:decode_wif"])
p("Encrypting a decrypted key again",
  "If decrypt returned a WIF for a non-EC key, then encrypting that WIF with the same passphrase and network either reproduces the record (canonically checksummed) or raises ValueError, and which of the two is decided by whether the deciphered halves start with a zero byte; it never returns a different encrypted key.",
  "all 43-byte non-EC records and passphrases","all records, including those made elsewhere",
  [M+":BIP38.encrypt",M+":BIP38.decrypt"])
p("Signed integers and bytes",
  "bytes_to_integer(signed=True) returns the two's complement value of every non-empty byte string, in either byte order, and integer_to_bytes with the same width and signed=True gives the string back; with a width w exactly the integers in [-256^w/2, 256^w/2) are written and all others raise OverflowError. Without a width the chosen width is that of the unsigned shortest form, so integers below -128 and positive integers whose shortest form starts with a byte above 127 raise OverflowError.",
  "all byte strings, integers, widths and byte orders","all integers",
  ["bip38/utils.py:integer_to_bytes","bip38/utils.py:bytes_to_integer"])
p("The branches for an old ecdsa package",
  "On every point of the curve the fallback serialisations of Point (used when the ecdsa package has no to_bytes) give the same bytes as the normal ones, compressed and raw. Reading 64 raw bytes back through the fallback gives the point, or AssertionError off the curve; the 33-byte compressed form is never read back as its point.",
  "all points of the curve and all byte strings","2^256 points",
  [S+"point.py:Point.from_bytes",S+"point.py:Point.raw_encoded",S+"point.py:Point.raw_decoded"])
p("The hash helpers take bytes or hexadecimal text",
  "sha256, double_sha256, hash160, ripemd160 and get_checksum give the same result for a byte string and for its hexadecimal text in any letter case, namely the hash of those bytes (get_checksum: the first four bytes of the double SHA-256); text that is not hexadecimal raises ValueError. None and other false values count as no bytes; any other object is a TypeError.",
  "all byte strings and texts","all inputs",
  ["bip38/crypto.py:sha256","bip38/crypto.py:double_sha256","bip38/crypto.py:hash160","bip38/crypto.py:ripemd160","bip38/crypto.py:get_checksum"])
p("Exceptions of the WIF and address codecs",
  "For text or byte arguments encode_wif raises only Secp256k1Error or ValueError; private_key_to_wif additionally WIFError (WIF type) and KeyError; decode_wif only WIFError or UnicodeEncodeError; wif_to_private_key, get_wif_type, get_wif_checksum additionally KeyError; P2PKHAddress.encode only Secp256k1Error or ValueError; P2PKHAddress.decode only AddressError, ValueError or UnicodeEncodeError. Each of these is reached. An unknown network name is a KeyError, not NetworkError, in these functions.",
  "all arguments","absence of other exceptions on all inputs",
  [W+":encode_wif",W+":decode_wif",W+":private_key_to_wif",PK+":P2PKHAddress"])
p("Addresses of another network are refused",
  "P2PKHAddress.decode of the address of any public key, in either form and over any alphabet, with an address prefix different from the one it was encoded with raises AddressError.",
  "all curve points, alphabets, pairs of prefixes","all points and pairs of prefixes",
  [PK+":P2PKHAddress.decode"])
p("Encrypted keys outside the Base58 alphabet are accepted",
  "For every encrypted key there is a text containing the character 0, which is not in the alphabet, that decrypt treats exactly as the key itself, for every passphrase and network: decrypt does not reject texts that are not Base58.",
  "all encrypted keys, passphrases, networks","for-all-exists claim",
  [M+":BIP38.decrypt",B58+":decode"])
p("Calls do not influence each other",
  "In every sequence of constructor and method calls of one process, on any number of objects, each call returns or raises what it would on a fresh object made with the same arguments in a process that had done nothing else (given the same next random bytes); with salt and seed given explicitly, the result is the same in every history.",
  "all finite histories of calls on any number of objects","all histories and their interleavings",
  [M+":BIP38.__init__",M+":BIP38"])
p("Random bytes are used once and in full",
  "In every history the random bytes taken by the calls are, in order, a prefix of what the random source delivers: none is used twice or discarded; a call takes 8 bytes as salt, 24 as seed, or none, and behaves as if they had been given explicitly. So two unsalted intermediate codes, or two unseeded keys made from one code, can only coincide if the random source repeated itself.",
  "all finite histories, all random sources","all histories",
  [M+":BIP38.intermediate_code",M+":BIP38.create_new_encrypted_wif"])
p("Which alphabets the Base58 functions work with",
  "base58.encode writes the base-L text for every alphabet of two or more characters (repeated and non-ASCII ones included), and base58.decode reads every ASCII text with every ASCII alphabet, the first of equal letters counting. An alphabet reads back everything it writes exactly when it has two or more letters, all different and all ASCII. The empty alphabet raises ZeroDivisionError on every input; with one letter, all-zero data can be written and the loop never ends on anything else.",
  "all alphabets, all byte strings and texts","infinitely many alphabets; an equivalence; non-termination",
  [B58+":encode",B58+":decode"])
p("Calls from several threads",
  "Let any number of threads call constructors and methods and assign to the network attribute of shared objects, each choosing its next call from the results it has had, scheduled in any way. Then the results are those of doing the calls one after another in the order in which they began; every thread's calls appear in its own order; no random byte is used by two calls and none is lost; an unsalted intermediate code gets 8 bytes and an unseeded key 24. If nobody assigns to network, every call on an existing object returns what it returns on a fresh object in a process that does nothing else. After object.network = n (n non-empty), calls without a network argument do what they did with network=n and calls with one are unaffected.",
  "all programs of any number of threads, all schedules of their steps, all random sources","all interleavings",
  [M+":BIP38.__init__",M+":BIP38.intermediate_code",M+":BIP38.encrypt",M+":BIP38.create_new_encrypted_wif",M+":BIP38.confirm_code",M+":BIP38.decrypt"])
p("Lot and sequence numbers given as text",
  "intermediate_code also takes lot and sequence as text. A text that writes an integer (spaces around, sign, digits with single underscores) is taken as that integer: text and integer are interchangeable for non-zero numbers, out-of-range numbers raise the same errors, and keys made from the code decrypt and report that lot and sequence. Sequence \"0\" given as text is kept, although 0 given as an integer is dropped (C23), so the two calls make different codes. Any other ASCII text raises ValueError.",
  "all ASCII texts, all integers, salts, passphrases","all texts; equivalence of two ways of calling",
  [M+":BIP38.intermediate_code"])
p("Bytes and hexadecimal text are interchangeable",
  "Wherever a function takes bytes or text (private key, public key, owner salt, seed), hexadecimal text in any letter case and with white space gives exactly the result of the bytes it writes, or the same exception class. The exception is text of white space only: as a salt it raises Error, and as a seed it stands for the empty seed, without randomness, so all such calls make the same key.",
  "all byte strings and all hexadecimal texts of them","all inputs; equivalence of two ways of calling",
  [W+":encode_wif",W+":private_key_to_wif",PK+":P2PKHAddress.encode",M+":BIP38.intermediate_code",M+":BIP38.create_new_encrypted_wif","bip38/utils.py:get_bytes"])
p("Arguments of the wrong type",
  "Python checks no types, so every argument of the constructor and of the five methods may be None, a bool, an int, bytes, text or another object. A method returns a result only if every argument declared as text is text (network, salt and seed may also be a false value, which counts as not given; salt and seed bytes). A network that is neither text nor false raises NetworkError naming its class; a key, code, seed or salt of a wrong type raises TypeError; a passphrase that is not text raises TypeError or what the call raises for every passphrase; a wif_type that is not text raises WIFError; detail counts as its truth value; True counts as lot or sequence 1 and ASCII bytes as text.",
  "all values of all arguments, all objects","every combination of types and values",
  [M+":BIP38.__init__",M+":BIP38.intermediate_code",M+":BIP38.encrypt",M+":BIP38.create_new_encrypted_wif",M+":BIP38.confirm_code",M+":BIP38.decrypt",B58+":decode","bip38/utils.py:get_bytes"])
p("The other functions with arguments of the wrong type",
  "The Base58, integer, WIF and address functions check no types either, and refuse other types only by what they do with them. Where text is read (decode, check_decode, decode_wif, wif_to_private_key, get_wif_type, get_wif_checksum, P2PKHAddress.decode) anything but text is a TypeError; encode, check_encode and bytes_to_integer take bytes only. ensure_string takes text and exactly the bytes that are the UTF-8 form of a text, and raises ValueError otherwise. integer_to_bytes raises TypeError without and AttributeError with a width on anything but an int; True and False count as 1 and 0; a byte order other than big or little is a ValueError. bytes_reverse(n) for an int n is n zero bytes. A network that is no name of the coin is a KeyError, a wrong WIF type a WIFError naming it, before the key is looked at. P2PKHAddress ignores keyword arguments it does not know, in any order, and takes every public_key_type but the text compressed for uncompressed. decode of the empty text succeeds with any alphabet. Nothing else returns a result for arguments of other types than the declared ones.",
  "all values of all modelled types in every argument position, all dictionaries of keyword arguments","every combination of types and values",
  [B58+":encode",B58+":decode",B58+":check_encode",B58+":check_decode",B58+":ensure_string",B58+":string_to_int",U+":integer_to_bytes",U+":bytes_to_integer",U+":bytes_reverse",W+":encode_wif",W+":decode_wif",W+":private_key_to_wif",W+":wif_to_private_key",W+":get_wif_type",W+":get_wif_checksum",PK+":P2PKHAddress.encode",PK+":P2PKHAddress.decode"])
p("Changing a coin's table or an object's attributes",
  "Let a program change, between calls, the NETWORKS tables of the coin classes (put, change or delete entries) and the attributes network, networks and cryptocurrency of its BIP38 objects. The constructor accepts exactly the names that are in the class's table when it is called, and the object keeps that list of names: a network put into the table later is refused with NetworkError naming the old list, unless the object's networks attribute was replaced, which then decides. The prefixes, however, are those in the table when a method is called: each call with a known name does what it does on a fresh object of a class with just that entry. If the entry of a known name has been deleted, no method returns: encrypt raises KeyError, the others KeyError or an exception they raise for every prefix. Changes to other classes and other objects have no effect, intermediate_code is affected by none, no random byte is used twice, and without such changes the process is that of C65 and C66.",
  "all finite histories of constructor calls, method calls, table changes and attribute assignments, on any number of classes and objects","all histories and the times at which a table is changed relative to calls",
  [M+":BIP38.__init__",M+":BIP38.encrypt",M+":BIP38.create_new_encrypted_wif",M+":BIP38.confirm_code",M+":BIP38.decrypt","bip38/cryptocurrencies.py:ICryptocurrency"])
p("Changes while a call runs",
  "Other threads may assign to an object's attributes and change its class's table between any two reads of a method that is running on it. A name that is not in the networks list at the time of the check raises NetworkError. create_new_encrypted_wif and confirm_code look up one entry, and do what they do undisturbed with that entry. decrypt looks up the address prefix and later the WIF prefix: it does what it does undisturbed with the two prefixes it finds, so if the entry is replaced in between it returns the right key with a WIF for the new and an address for the old network, although no such entry ever existed. encrypt looks up the WIF prefix twice and then the address prefix: with one-byte prefixes it does what it does undisturbed with one of the two and the address prefix, and returns a result only if they were equal, so it never encrypts another key. A method returns a result only if all its lookups find an entry.",
  "all sequences of states of the object and its class's table at the reads of a method, all arguments","all interleavings of a call with changes by other threads",
  [M+":BIP38.encrypt",M+":BIP38.create_new_encrypted_wif",M+":BIP38.confirm_code",M+":BIP38.decrypt",W+":get_wif_type",W+":wif_to_private_key",W+":private_key_to_wif"])
p("An EC-multiplied key can be made again from what decrypt reports",
  "If decrypt with detail=True reports a 24-byte seed for an EC-multiplied key, then intermediate_code with the same passphrase, the reported lot and sequence numbers (in range, sequence at least 1) or none, and the salt, which stands in the key in the clear, gives a code, and create_new_encrypted_wif with that code and seed gives back the very same encrypted key (with a correct checksum, whatever the checksum of the decrypted text was), the same address and the same public key; or it raises ValueError, exactly when one of the four masked blocks starts with a zero byte.",
  "all texts decrypt accepts, all passphrases, networks, flags, salts","round trip in the other direction: ranges over every key that decrypts, not over keys this library made",
  [M+":BIP38.decrypt",M+":BIP38.intermediate_code",M+":BIP38.create_new_encrypted_wif"])
p("The exact outcome of encrypt",
  "For every text given as the key, encrypt does exactly this, in this order of checks: a non-ASCII text raises UnicodeEncodeError; a text whose Base58 bytes are not the network's WIF prefix, 32 bytes, an optional marker byte and four more bytes raises WIFError; a private key that is zero or not below the group order raises Secp256k1Error; a passphrase without a UTF-8 form raises UnicodeEncodeError; if byte 0 or byte 16 of the key equals that byte of the derived key it raises ValueError; and otherwise it returns the BIP38 text of the key. It checks neither the WIF's checksum nor the value of its marker byte, so any text with those bytes gives the same encrypted key as the proper WIF, and decrypt gives the proper WIF back unless the key starts with a zero byte (C12).",
  "all texts, passphrases, networks","complete case distinction over all texts",
  [M+":BIP38.encrypt",W+":decode_wif"])
p("The exact outcome of create_new_encrypted_wif for seeds of any length",
  "For every valid intermediate code and every seed, of whatever length, whose double hash is a valid scalar, create_new_encrypted_wif succeeds exactly if each of the four masked values (the first 16 bytes of the seed; the second half of the first encrypted block followed by the rest of the seed; the two halves of the public point), combined with the mask as numbers, has a shortest form of exactly 16 bytes, and the encrypted key, the confirmation code, the address and the public key are those the formats give for these blocks. Otherwise it raises ValueError.",
  "all codes, seeds, networks, WIF types","all seeds of all lengths; complete case distinction",
  [M+":BIP38.create_new_encrypted_wif"])
p("The exact outcome of intermediate_code",
  "Every call of intermediate_code falls in exactly one of these cases: a salt of other than 4 or 8 bytes, a 4-byte salt without both numbers, one number given (not zero) without the other, a lot outside 100000..999999, a sequence outside 1..4095 each raise Error with a fixed text; with two non-zero numbers in range the entropy is the first four salt bytes and lot * 4096 + sequence, and otherwise (a number missing or zero) the whole salt. Then a passphrase without UTF-8 form raises UnicodeEncodeError, a derived factor that is no private key raises Secp256k1Error, and any other passphrase gives the code of its public point.",
  "all passphrases, lot and sequence numbers, salts","complete case distinction over all arguments",
  [M+":BIP38.intermediate_code"])
p("Length and first characters of WIFs and addresses",
  "For each of the networks of the coin table there are a fixed number of characters and fixed first characters: every WIF that private_key_to_wif or decrypt gives for the network, and every address P2PKHAddress.encode, decrypt or create_new_encrypted_wif gives, has that length and begins with one of those characters (Bitcoin mainnet: 51 characters from 5, 52 from K or L; testnet: 9, c, and addresses of 34 characters from m or n). Addresses for prefix 0 begin with 1 and have 25 to 34 characters.",
  "all keys and points, all coins and networks of the table","the range of all keys; texts near the boundaries are never hit by examples",
  [W+":private_key_to_wif",W+":encode_wif",PK+":P2PKHAddress.encode",M+":BIP38.decrypt",M+":BIP38.create_new_encrypted_wif","bip38/cryptocurrencies.py:ICryptocurrency"])
p("Defaults fixed at import, tables read at each call",
  "encode_wif and decode_wif without wif_prefix use the prefix Bitcoin's mainnet had when the package was imported, and P2PKHAddress without address_prefix the one it had then or the last value assigned to P2PKHAddress.address_prefix, whatever is done to the NETWORKS tables later. private_key_to_wif, wif_to_private_key, get_wif_type and get_wif_checksum read the table at each call (KeyError once the entry is gone). So the two groups agree while mainnet keeps its prefix, and with another prefix of as many bytes, each group refuses the WIFs of the other. The package cannot be imported without Bitcoin's mainnet, and no such call disturbs the rest of the process.",
  "all histories of calls and table changes, all keys and texts","a statement about every history",
  [W+":encode_wif",W+":decode_wif",W+":private_key_to_wif",W+":wif_to_private_key",W+":get_wif_type",W+":get_wif_checksum",PK+":P2PKHAddress"])
p("Interrupted calls leave no trace",
  "If KeyboardInterrupt, a signal handler's exception or MemoryError cuts a call short at any point, the calls that end by themselves get what they would get in a process without the interrupted ones, up to which random bytes they draw; a call that needs no random bytes gets exactly what it gets alone on a new object. An interrupted call has taken the 8 or 24 random bytes it asks for, or none; they are lost, and no byte is ever handed out twice, so a call made again in its place draws new ones.",
  "all histories, all interrupted calls and points of interruption","every crash point of every history",
  [M+":BIP38.__init__",M+":BIP38.intermediate_code",M+":BIP38.create_new_encrypted_wif",M+":BIP38.encrypt",M+":BIP38.confirm_code",M+":BIP38.decrypt"])
p("What the library writes, any conforming program reads, and the other way round",
  "Every text encrypt returns is read by a decryptor written strictly after the BIP38 text (blocks of fixed length, no leading zero byte dropped, checksum and address hash verified) as exactly the key and form it was made from, also for the keys decrypt itself refuses (C12). Every key create_new_encrypted_wif makes from a 24-byte seed is read by it, with the owner's passphrase, as exactly the entropy, seed and key of the returned address, and the confirmation code confirms exactly that address, also in the cases decrypt and confirm_code refuse (C25, C26). With a seed of another length no such reader finds the seed, nor the key unless two seeds collide under double SHA-256. Conversely, on a text with correct checksum and a flag of the BIP, whatever decrypt returns (for seeds of 24 bytes) and whatever confirm_code returns is what that reader finds.",
  "all networks, keys, passphrases, codes, seeds and texts","all inputs; the other program is any that follows the BIP",
  [M+":BIP38.encrypt",M+":BIP38.create_new_encrypted_wif",M+":BIP38.decrypt",M+":BIP38.confirm_code"])
p("Passphrases that look the same are the same, and only those",
  "intermediate_code, encrypt, confirm_code and decrypt give identical results for canonically equivalent passphrases (the same text with composed or decomposed letters, combining marks in another order, Hangul as syllables or as letters), whatever keyboard or system typed them; passphrases that are not canonically equivalent reach scrypt as different bytes. The bytes are the UTF-8 of a canonically equivalent text in which everything that can be composed is composed, and normalising that text again changes nothing. A passphrase of code points can be used exactly if it contains no surrogate. Text below U+0300 is used as typed.",
  "all passphrases (sequences of code points)","infinitely many texts; tests use a handful",
  [M+":BIP38.intermediate_code",M+":BIP38.encrypt",M+":BIP38.confirm_code",M+":BIP38.decrypt"])
p("Under Python 3.14 and later the library does the same, but may show bytes as bytes",
  "From Python 3.14 on, where bytes.fromhex accepts bytes, the library accepts and refuses the same calls and produces the same encrypted WIFs, codes, WIFs and addresses. What changes: a value the library shows through bytes_to_string (a private key, a seed, a checksum, a public key hash) is returned as the bytes themselves instead of hexadecimal text exactly if those bytes happen to be hexadecimal text in ASCII, and error texts that quote or count such bytes change accordingly; public keys are always text. Passing such a value back to the library gives the same result as passing the bytes.",
  "all calls of the WIF functions, P2PKHAddress.decode and the five methods, all arguments of the declared types, all private keys, seeds and salts","the bytes concerned are rare (all characters hexadecimal digits or white space) and the interpreter is not the one tests ran on",
  [U+":bytes_to_string",W+":wif_to_private_key",W+":get_wif_checksum",M+":BIP38.intermediate_code",M+":BIP38.encrypt",M+":BIP38.create_new_encrypted_wif",M+":BIP38.confirm_code",M+":BIP38.decrypt"])
p("Python's limit on the digits of numbers changes no intermediate code",
  "Where Python limits conversions between int and text (4300 digits by default; any limit Python allows, that is 640 or more), intermediate_code with lot and sequence as integers or ASCII text of at most that many digits does what it does without a limit; with any arguments it does the same or raises ValueError, so it never makes another code. With a valid owner salt and both numbers given, a lot number of more digits than the limit (as text, also by leading zeros, or as an integer) and a sequence number of more digits as text raise ValueError, as does such an integer as sequence number with a valid lot number, and such an integer given alone. The number an error text shows is the decimal text of the number that was given, and int() reads that text as the same number.",
  "all limits, passphrases, lot and sequence numbers as integers or text, owner salts, random bytes","numbers of unbounded size",
  [M+":BIP38.intermediate_code"])
p("The tables of supported coins list every coin",
  "docs/tools/generate_cryptocurrencies_table.py writes two HTML tables. Read as tables (cells of rows, tags removed), each has a header row and then, for every coin class of the module, in the order of the names and once each, one row per network in the order of NETWORKS with the network's name, WIF prefix and address prefix in lower-case hexadecimal of at least two digits after 0x; the first row of a coin also shows its name, in a cell spanning exactly as many rows as the coin has networks.",
  "all sets of coin classes with distinct names, with any networks and any prefixes from 0 on, whose names are not empty and contain no <","tests run the script on one module, if at all",
  ["docs/tools/generate_cryptocurrencies_table.py","bip38/cryptocurrencies.py"])
p("What the example programs print agrees, and can be read back as JSON",
  "The dictionaries and texts that create_new_encrypted_wif, confirm_code and decrypt return, written with json.dumps(..., indent=4) as the programs in examples/ and the README do, are read by any JSON reader as exactly the same keys and values. With any passphrase, coin, network, WIF, salt, seed, WIF type, lot and sequence number at their beginning, the two programs without EC multiplication print the encrypted key and then the WIF, key, public key and address they started from (for the keys C12 and C13 allow); the four with EC multiplication, once they have printed an encrypted key, go on to the end and print the same seed, public key, address, lot and sequence numbers each time, and the private key that belongs to them, unless one of five bytes is zero (C25, C26).",
  "all constants of the programs, all salts and seeds, all results of the methods; all dictionaries of Unicode texts, integers and None","the programs use random salts and seeds; texts are unbounded",
  ["examples/",M+":BIP38.create_new_encrypted_wif",M+":BIP38.confirm_code",M+":BIP38.decrypt"])
p("Lot and sequence numbers given as floats",
  "A float that is not zero, as lot or sequence number of intermediate_code, counts as the integer left when its fraction is dropped (towards zero): for whole parts other than 0 the outcome, code or error, is that of these integers. A sequence between -1 and 1 other than 0, such as 0.5, makes a code with lot number and sequence 0, which the integer 0 never does. 0.0 and -0.0 are the integer 0; an infinity is an OverflowError and NaN a ValueError, of the lot first; a single number is refused with an error that shows the float.",
  "all finite floats (of any precision), infinities and NaN, mixed with integers and text, for all passphrases and salts","floats are not covered by the declared types, and there are 2^64 of them",
  [M+":BIP38.intermediate_code"])
p("Calculations with Point objects",
  "Any expression built from points of keys (PrivateKey.from_bytes(..).public_key().point()), points read from bytes, + and * by integers of either sign gives the public point of one integer, computed from the secret numbers of its leaves with ordinary + and * and reduced modulo the group order; it gives the point at infinity exactly when that remainder is 0. Two expressions give the same point exactly when their integers agree modulo the order. PublicKey.from_point of the result is the public key of the remainder. The point at infinity has coordinates None; its encodings are AttributeErrors and PublicKey.from_point refuses it with a TypeError. Only a refused leaf makes the calculation fail, with a Secp256k1Error.",
  "all expressions of any size and shape, all private keys, all encodings of curve points, all integer factors","the group law must hold for every combination of 2^256 points, in every order of evaluation",
  [S+"point.py:Point.__add__",S+"point.py:Point.__mul__",S+"point.py:Point.__radd__",S+"point.py:Point.__rmul__",S+"point.py:Point.from_bytes",S+"public_key.py:PublicKey.from_point",S+"private_key.py:PrivateKey.public_key"])
p("A passphrase matters only through scrypt",
  "Two passphrases for which scrypt (N = 16384, r = 8, p = 8, 64 or 32 bytes) gives the same bytes under the one salt the operation uses are interchangeable: encrypt, decrypt (of non-EC and of EC-multiplied keys), intermediate_code and confirm_code then give the same outcome. The salt is the 4-byte address hash for a non-EC key, and for an intermediate or EC-multiplied code the owner salt: 8 bytes, or only the first 4 of them when there is a lot number.",
  "all pairs of passphrases, keys, codes, salts, networks, lot and sequence numbers, and every scrypt","quantifies over all pairs of passphrases and over the key derivation itself",
  [M+":BIP38.encrypt",M+":BIP38.decrypt",M+":BIP38.intermediate_code",M+":BIP38.confirm_code"])
p("Passphrases that the published scrypt cannot tell apart",
  "With scrypt as in RFC 7914 (PBKDF2-HMAC-SHA256 keyed by the passphrase bytes) two passphrases of at most 64 UTF-8 bytes that differ only in trailing NUL characters are interchangeable everywhere, and a passphrase of more than 64 bytes is interchangeable with the one whose UTF-8 bytes are its SHA-256 digest, when there is one.",
  "all passphrases with trailing NULs, all passphrases of more than 64 bytes, in all operations","the collisions are rare inputs; that each is a collision in every operation needs a proof",
  [M+":BIP38.encrypt",M+":BIP38.decrypt",M+":BIP38.intermediate_code",M+":BIP38.confirm_code"])
p("RIPEMD-160 listed but not provided",
  "When hashlib lists ripemd160 in algorithms_available but hashlib.new raises ValueError (OpenSSL 3 without its legacy provider), the pure Python implementation is not used: ripemd160, hash160, P2PKHAddress.encode, encrypt, create_new_encrypted_wif, confirm_code and decrypt never succeed. Whatever would have succeeded is a ValueError, and every failure is a ValueError or the error the call gives anyway; decrypt never says Incorrect passphrase, so a right and a wrong passphrase look the same. intermediate_code, Base58Check, the WIF functions, address decoding and the SHA-256 helpers are not affected.",
  "all arguments of all these functions, all sessions and networks","depends on the installation of OpenSSL; the tests run where the hash works or is not listed",
  ["bip38/crypto.py:ripemd160","bip38/crypto.py:hash160",PK+":P2PKHAddress.encode",M+":BIP38.encrypt",M+":BIP38.decrypt",M+":BIP38.create_new_encrypted_wif",M+":BIP38.confirm_code"])
p("Which questions scrypt is asked",
  "The outcome of a call depends on scrypt only through named evaluations; it stays the same if scrypt is replaced by any function of the same lengths that agrees there. intermediate_code: one with N=16384, r=8, p=8 for the passphrase and the salt (its first four bytes with lot and sequence numbers), 32 bytes. encrypt and decrypt of a plain key: one with these parameters for the address hash, 64 bytes. decrypt of an EC-multiplied key and confirm_code: one with these parameters for the owner salt, and, if that gives a private key, one with N=1024, r=1, p=1 for the compressed pass point and address hash plus entropy. create_new_encrypted_wif: only N=1024, r=1, p=1, for the pass point in the code and the new address hash plus entropy. A text that is not an encrypted key (other length, other prefix, other plain flag), a confirmation code that is misspelt or begins otherwise, a WIF of another network or with a number that is not a private key, and salt, lot or sequence out of range are refused whatever scrypt and whatever passphrase are used.",
  "all functions in place of scrypt, all arguments of these calls, all sessions and networks","a statement about every other hash function and every input; a test can only count calls in single runs",
  [M+":BIP38.intermediate_code",M+":BIP38.encrypt",M+":BIP38.create_new_encrypted_wif",M+":BIP38.confirm_code",M+":BIP38.decrypt"])
p("Coin classes that inherit or share a table",
  "A coin class sees the NETWORKS table of the first class in its method resolution order that holds one, and a table held or seen by several classes is one table: an entry put, changed or deleted through one of them is so for all. Let a program do what C73 allows and also assign tables (class.NETWORKS = a new dict, or another class's table). At any time the constructor accepts exactly the names in the table its class then sees; the object keeps these names (others are refused with NetworkError naming them), and each method takes the prefixes from the table the object's class sees when it is called, as a fresh object of a class with just that entry would; if that table has no entry for a known name no method returns, as in C73. Statements that look up an entry raise KeyError exactly if the class sees none. A subclass that is never given a table (single inheritance, same ALPHABET) can be replaced by its base throughout without changing any outcome, and with a table for each class the process is that of C73.",
  "all class hierarchies (any resolution orders, every class seeing some table), all sequences of operations","the histories and hierarchies are unbounded, and the aliasing shows only in combinations",
  [M+":BIP38.__init__",M+":BIP38","bip38/cryptocurrencies.py:ICryptocurrency"])
p("Results do not depend on the curve package beyond SEC 1, nor on python -O",
  "The five methods of BIP38 and P2PKHAddress.encode (of a public key on the curve) return and raise the same over every elliptic-curve package that does what SEC 1 and SEC 2 say about valid keys: accepts as private keys exactly the 32-byte numbers from 1 to n-1, accepts as public keys, among strings of up to 33 bytes, exactly the compressed points, multiplies by exponents from 1 to n-1, and writes points in SEC 1 form. What a package does with longer strings, points off the curve or exponents out of range never matters to them (for an address of a public key given as bytes or text, it must also read the other forms ecdsa reads). In particular python -O, which removes the assertions of the ecdsa package, changes nothing in them. It does change the classes: Point.from_coordinates then accepts every pair of integers instead of raising AssertionError off the curve, and PublicKey.from_point still accepts exactly the points of the curve but refuses the others with Secp256k1Error instead of AssertionError; whatever else these classes return or raise stays the same.",
  "all curve packages meeting the specification, all arguments of all methods","the packages are not a finite set, and tests run under one of them, without -O",
  [M+":BIP38","bip38/secp256k1/public_key.py:PublicKey.from_point","bip38/secp256k1/point.py:Point.from_coordinates","bip38/secp256k1/private_key.py:PrivateKey.from_bytes"])
p("No operation inside the bundled RIPEMD-160 fails",
  "ripemd160(data) returns the RIPEMD-160 digest for every bytes of less than 2^61 bytes: no list index is out of range, no shift is negative, struct.unpack always gets 4 bytes, and the assertion in fi is never reached (so python -O makes no difference). For longer data it raises struct.error.",
  "all byte strings","for every length and content, and the claim is about branches no input reaches",
  ["bip38/libs/ripemd160.py:ripemd160","bip38/libs/ripemd160.py:compress","bip38/libs/ripemd160.py:fi"])
p("Exchanging the libraries for hashes, scrypt, AES and Unicode",
  "Take two sets of libraries (hashlib, scrypt, pyaes, unicodedata) that give the same SHA-256 digests and the same NFC forms, the same RIPEMD-160 digests of 32-byte strings (the bundled function counting where hashlib has none), the same scrypt results for the parameters (16384, 8, 8) with 32 or 64 bytes and (1024, 1, 1) with 64 bytes, and the same AES results on single 16-byte blocks under 32-byte keys. Then all five methods of BIP38, the hash helpers sha256, double_sha256, get_checksum and hash160, Base58Check, private_key_to_wif and the address functions return and raise the same with either, for all arguments. What the libraries do on anything else (other key sizes, other parameters, longer data) never matters.",
  "all pairs of libraries that agree on these questions, all arguments","neither the libraries nor the arguments are a finite set",
  [M+":BIP38","bip38/crypto.py:hash160","bip38/crypto.py:get_checksum","bip38/wif.py:private_key_to_wif","bip38/p2pkh_address.py:P2PKHAddress.encode"])
p("Errors that cross process borders",
  "Every exception the library raises, sent to another process with pickle (as multiprocessing and concurrent.futures do with the exception of a worker) or copied with the copy module, arrives as an exception of the same class with the same str and repr, however often it is passed on; the objects quoted in it with got= need not be picklable. What is lost is only the exception it was raised from. The text is the one of C44; repr and args show the message alone. This holds because every raise statement gives the message by position: any exception of these classes made so, with arguments that can be pickled, arrives; one made with message=... cannot be put together again and raises TypeError instead.",
  "all messages, details, expectations and values quoted, all classes of the library, any number of crossings","all arguments, any number of crossings; a failure shows only in the receiving process",
  ["bip38/exceptions.py:Error.__init__","bip38/exceptions.py:Error.__str__"])
p("Copied objects and worker processes",
  "Let several processes make BIP38 objects, call their methods, change tables and attributes, copy objects (copy.copy, copy.deepcopy), send them to each other with pickle, and fork. A copied or sent object begins with the class, names and network the original has then; a child process begins with all its parent has. A sent or deep-copied object stays so whatever is done to the original or to anything else, until a statement names it, and so does the original; what other processes do changes neither objects nor tables of a process. copy.copy shares the list of names: changed in place through either object it is changed for both, until one is given another list. A method call goes by the names its object has and by the table its own process has for the object's class at that time: other names are refused with NetworkError naming the list, and with an entry for the name the call does what a fresh object of a class with just that entry does; so an object sent to a worker works there with the prefixes of the worker's table. No random byte is used twice, in whatever processes, forked ones included.",
  "all histories of any number of processes, all arguments","the histories, processes and interleavings are unbounded",
  [M+":BIP38.__init__",M+":BIP38","bip38/cryptocurrencies.py:ICryptocurrency"])
p("The interpreter's flag -bb",
  "Under python -bb, with which showing a bytes object as text raises BytesWarning, every call ends as without the flag, with two exceptions: confirm_code, given the Base58Check text of 51 bytes whose first five are not those of a confirmation code, raises BytesWarning in place of Error; and P2PKHAddress.decode, given an address of the right length under another prefix, raises BytesWarning in place of AddressError. The functions on WIFs and encrypt never show bytes, whatever the text and the prefix.",
  "all texts, prefixes, alphabets, passphrases and networks","all texts and prefixes; test suites run without the flag",
  [M+":BIP38.confirm_code","bip38/p2pkh_address.py:P2PKHAddress.decode","bip38/wif.py:decode_wif","bip38/exceptions.py:Error.__init__"])
p("What a traceback shows",
  "An exception of a method of BIP38, shown with the exceptions it was raised after, says nothing about the passphrase: the exceptions before it are those of the library and of the ecdsa package with fixed texts, the ValueError of a checksum, or the exception about the code that was read. If the call ends with UnicodeEncodeError, nothing is before it and it is about the text to be read, which is not ASCII, or about the normalised passphrase, which has no UTF-8; its text names the positions of the first such run of characters and, if the run is one character, that character, which is one that has no UTF-8, written as a backslash and its hexadecimal digits, and so it is the same for all passphrases with that run and character. Its attribute object, however, is the whole text or the whole normalised passphrase. A code that is not ASCII gives confirm_code's or create_new_encrypted_wif's own error with that exception before it.",
  "all arguments of the methods","all texts and passphrases; assertRaises looks at the class only",
  [M+":BIP38","bip38/libs/base58.py:decode","bip38/wif.py:decode_wif","bip38/secp256k1/private_key.py:PrivateKey.from_bytes","bip38/secp256k1/public_key.py:PublicKey.from_bytes"])
p("Texts of one kind are refused as another",
  "Encrypted keys, confirmation codes, intermediate codes, WIFs and addresses cannot be taken for one another: a text for which one of decrypt, confirm_code, create_new_encrypted_wif, the WIF readers (and so encrypt) and P2PKHAddress.decode returns a result is refused by each of the others, for whatever network, passphrase, prefix and other arguments, with that reader's own exception, whose text tells at most the length of what was read; P2PKHAddress.decode may also raise its checksum's ValueError.",
  "all texts, sessions, passphrases, prefixes of one or two bytes and other arguments","all texts and all pairs of readers",
  [M+":BIP38","bip38/wif.py:decode_wif","bip38/p2pkh_address.py:P2PKHAddress.decode","bip38/libs/base58.py:check_decode"])
p("A bytearray handed in is not changed, and taken as bytes or refused",
  "Given a bytearray, no function writes to it, also if it is changed meanwhile. Base58 encode and check_encode, bytes_reverse, bytes_to_integer and the from_bytes of keys take it as the bytes it holds; get_bytes, bytes_to_string, the hash helpers, the WIF functions, P2PKHAddress.encode, a salt or a seed refuse it with TypeError unless it is empty, when it is as b'' (and for a salt or seed as none). If it is changed while the call runs: encode gives the digits of one moment, perhaps with another number of leading zeros; check_encode gives a text that check_decode refuses or takes for the contents at one moment; a salt or seed is never taken from it. The buffers that decode and bytes_reverse use themselves cannot be reached from outside.",
  "all contents, all changes at all moments of the call, all other arguments","all contents and all schedules of changes",
  ["bip38/utils.py:get_bytes","bip38/utils.py:bytes_reverse","bip38/utils.py:bytes_to_string","bip38/utils.py:bytes_to_integer","bip38/libs/base58.py:encode","bip38/libs/base58.py:check_encode","bip38/libs/base58.py:decode","bip38/crypto.py:sha256","bip38/wif.py:encode_wif","bip38/p2pkh_address.py:P2PKHAddress.encode",M+":BIP38.intermediate_code",M+":BIP38.create_new_encrypted_wif"])
p("A mistyped character",
  "base58.decode never reads a text and its misprint (one character replaced by any other, or two different neighbours exchanged) as the same bytes; so check_decode, and the address decoding, never take a misprint for the same contents. Where the checksum is not compared: if decrypt accepts an encrypted key and a misprint with at least six characters behind it, the 39-byte records differ, and of two keys without EC multiplication the same passphrase never opens both to the same result; the same for decode_wif with six (wif) or seven (wif-compressed) characters behind: never the same key and type. But a replaced character that changes the value by no more than the four checksum bytes can hold is not noticed: decrypt gives the same for all arguments; for every encrypted key and every WIF (prefix at least 1) with a checksum other than 00000000 and ffffffff there is another last character, accepted as the same key.",
  "all texts over the alphabet, all misprints, all passphrases and sessions","all texts and misprints",
  ["bip38/libs/base58.py:decode","bip38/libs/base58.py:check_decode","bip38/wif.py:decode_wif","bip38/p2pkh_address.py:P2PKHAddress.decode",M+":BIP38.decrypt"])
p("Characters around a text are not ignored",
  "White space, line ends, quotes or any other ASCII characters outside the alphabet, put in front of or behind a text, are never stripped. In front: whatever follows, base58.decode gives no bytes at all and every reader refuses: check_decode and the address decoding with ValueError, decode_wif and encrypt with WIFError 'Invalid Wallet Import Format (WIF)', decrypt with WIFError (length 43 expected, got 0), confirm_code with Error 'Invalid confirmation code', create_new_encrypted_wif with PassphraseError 'Invalid intermediate passphrase'. Behind: decode never gives the bytes of the text alone (unless its value is zero), check_decode neither; an encrypted key that some decrypt accepted is refused by every session and passphrase, with 'Invalid prefix' after one such character and with the length error after several; a WIF and an address accepted for a prefix (at least 1) are refused for this prefix; accepted confirmation codes and intermediate codes are refused by every session.",
  "all texts, all ASCII strings of characters outside the alphabet of any length, all sessions, passphrases and seeds","all texts and surroundings",
  ["bip38/libs/base58.py:decode","bip38/libs/base58.py:check_decode","bip38/wif.py:decode_wif","bip38/p2pkh_address.py:P2PKHAddress.decode",M+":BIP38.decrypt",M+":BIP38.confirm_code",M+":BIP38.create_new_encrypted_wif"])
p("Texts within texts",
  "A text that has something around it (a longer paste, two texts pasted together; or, the other way round, a text whose end or beginning was cut off) is not accepted as well: if an encrypted key is accepted by some session and passphrase, no text that properly contains it is accepted as an encrypted key by any session and passphrase; of the three kinds of codes (encrypted key, intermediate code, confirmation code) one can only be contained in a longer kind. Of two WIFs of one prefix (at least 1) and one type, and of two addresses of one prefix (at least 1), neither contains the other; no text over the alphabet that contains an address with prefix 0 (Bitcoin) is accepted for prefix 0, if the first byte of the hash is at least 5; with something behind it a WIF is refused for its prefix whatever the type. decode and check_decode never give the bytes of a text for another text that contains it (if they are not all zero). But in front of a WIF: as the checksum is not compared, the letter L put in front of any uncompressed WIF with prefix 0x80 (Bitcoin) gives a text that decode_wif accepts as a compressed one, and encrypt then does exactly what it does with the WIF of another private key (the user encrypts a key he has never seen); and this is the only text over the alphabet that contains a Bitcoin WIF and is accepted as one. For every prefix from 30 to 255 there is at most one such letter, given in a table (for Litecoin, 0xb0, the letter T); encrypt takes such a text for the compressed WIF of another key too.",
  "all texts, whatever characters stand around them, all sessions, passphrases and seeds","all pairs of texts",
  ["bip38/libs/base58.py:decode","bip38/libs/base58.py:check_decode","bip38/wif.py:decode_wif","bip38/p2pkh_address.py:P2PKHAddress.decode",M+":BIP38.decrypt",M+":BIP38.confirm_code",M+":BIP38.create_new_encrypted_wif"])
p("What every accepted text looks like",
  "Not only the texts the library writes: every text over the alphabet that decrypt accepts in some session has 58 characters and begins with 6 (6PR or 6PY without EC multiplication; 6Pf, 6Pg, 6Pn, 6Po with the flags of the standard); every intermediate code that create_new_encrypted_wif accepts has 72 characters and begins with 'passphrase'; every confirmation code that confirm_code accepts has 75 characters and begins with cfrm38. So a text with a character missing, or one typed twice, or any other change of the length, is not accepted as the same kind; and decrypt refuses every text over the alphabet that does not have 58 characters or does not begin with 6. Every WIF that decode_wif accepts for a prefix of the coin table has the length and one of the first letters listed for this prefix (Bitcoin: 51 characters and 5, or 52 and K or L), every accepted address as well (prefix 0: 25 to 34 characters, beginning with 1).",
  "all texts over the alphabet, all sessions, passphrases, seeds and prefixes of the coin table","all accepted texts",
  ["bip38/libs/base58.py:decode","bip38/wif.py:decode_wif","bip38/p2pkh_address.py:P2PKHAddress.decode",M+":BIP38.decrypt",M+":BIP38.confirm_code",M+":BIP38.create_new_encrypted_wif"])
with open('/verif/properties.jsonl','w') as f:
    for x in P: f.write(json.dumps(x)+"\n")
print(len(P))
